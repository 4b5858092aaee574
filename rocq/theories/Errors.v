(** What follows an error or a Return: proofs for Props_Errors. No Go counterpart. *)
From Verif Require Export Done Rounds.
Local Open Scope Z_scope.

Lemma tot_loc {A B} i t (m : M A) (k : A -> M B) y x s Q :
  s_insts s !! i = Some y -> s_tis s !! t = Some x ->
  loc i t m y x (fun a y' x' l => forall n, tot (k a) (put i t y' x' l n s) Q) -> tot (bind m k) s Q.
Proof.
  intros Hy Hx H. destruct (H s Hy Hx) as (a & y' & x' & l & n & Hm & Hk). apply tot_bind. eapply tot_eq; [exact Hm|]. apply Hk.
Qed.
Lemma tot_binst {B} i (k : inst -> M B) y s Q : s_insts s !! i = Some y -> tot (k y) s Q -> tot (bind (get_inst i) k) s Q.
Proof. intros Hy H. apply tot_bind. by eapply tot_get_inst. Qed.
Lemma tot_bti {B} t (k : tinst -> M B) x s Q : s_tis s !! t = Some x -> tot (k x) s Q -> tot (bind (get_ti t) k) s Q.
Proof. intros Hx H. apply tot_bind. by eapply tot_get_ti. Qed.

(** ** Entering start tasks *)

Record starts (i : nat) (y : inst) (ts : list task) (s s' : st) : Prop := mk_starts {
  sts_insts : exists m, s_insts s' = <[i := set_i_tasks m y]> (s_insts s) /\
    (forall id u, m !! id = Some u <->
      (i_tasks y !! id = Some u \/ exists k tk, ts !! k = Some tk /\ t_id tk = id /\ u = (s_nti s + k)%nat));
  sts_old : forall u, (u < s_nti s)%nat -> s_tis s' !! u = s_tis s !! u;
  sts_new : forall k tk, ts !! k = Some tk -> exists x, s_tis s' !! (s_nti s + k)%nat = Some x /\ ti_inst x = i /\
    ti_task x = tk /\ ti_status x = TReady;
  sts_nti : s_nti s' = (s_nti s + length ts)%nat;
  sts_queue : s_queue s' = s_queue s ++ imap (fun k _ => (S (s_wictr s + k), (s_nti s + k)%nat)) ts;
  sts_wictr : s_wictr s' = (s_wictr s + length ts)%nat
}.

Section Starts.
  Context (E : env).
  Local Set Default Proof Using "Type*".
  Context (NC : e_conc E = false) (SO : settings_ok E).

  Lemma loc_enter_leading i t y x (Q : enter_result -> inst -> tinst -> list event -> Prop) :
    ti_inst x = i -> t_from (ti_task x) = [] ->
    (forall l, Q EREval y (set_ti_status TReady (set_ti_status TEntered x)) l) ->
    loc i t (enter t) y x Q.
  Proof.
    intros Hi Hf HQ. unfold enter. apply loc_bind, loc_set_task_status, loc_bind, loc_from_links; [done|]. intros ev _.
    cbn [ti_task set_ti_status]. rewrite Hf. apply loc_bti. cbn [ti_inst set_ti_status]. rewrite Hi. apply loc_binst. cbn [scan_links].
    apply loc_bind, loc_set_task_status, loc_ret. rewrite lmap_id by done. apply HQ.
  Qed.
  Lemma loc_settings i t y x (Q : option err -> inst -> tinst -> list event -> Prop) :
    (forall m, Q None y (set_ti_set m x) []) -> loc i t (apply_settings E t) y x Q.
  Proof.
    intros HQ. unfold apply_settings. apply loc_bti. destruct (t_set (ti_task x)).
    - apply loc_bind, loc_ext. intros n v. destruct (SO n v) as [m ->]. apply loc_bind, loc_upd_ti, loc_ret. apply HQ.
    - apply loc_ret. specialize (HQ (ti_set x)). by destruct x.
  Qed.

  Lemma enter_starts skip i ts s y :
    s_insts s !! i = Some y -> (forall tk, tk ∈ ts -> t_from tk = [] /\ t_act tk <> None /\ i_tasks y !! t_id tk = None) ->
    NoDup (t_id <$> ts) ->
    tot (enter_list E skip i ((fun tk => (tk, 0)) <$> ts)) s (fun r s' => r = None /\ starts i y ts s s').
  Proof.
    revert s y. induction ts as [|tk ts IH]; intros s y Hy Hts N.
    - apply tot_ret. split; [done|]. constructor; try done.
      + exists (i_tasks y). split; [rewrite insert_id; [done|]; by destruct y|]. intros id u. split; [by left|]. by intros [?|(k & tk & ? & _)].
      + by rewrite app_nil_r.
    - cbn [fmap list_fmap enter_list]. destruct (Hts tk) as (Hf & Ha & Hno); [set_solver|].
      apply NoDup_cons in N as [Hnin N]. set (n := s_nti s).
      set (x0 := mk_tinst i tk TNotStarted ∅ ∅ ∅ ∅ None false).
      set (y1 := set_i_tasks (<[t_id tk := n]> (i_tasks y)) y).
      apply tot_bind. unfold find_or_create_task. eapply tot_binst; [done|]. rewrite Hno.
      apply tot_bind. unfold new_tinst. destruct (t_act tk); [|done]. apply tot_bind, tot_get. apply tot_bind, tot_modify, tot_ret.
      fold n x0. apply tot_bind, tot_upd_inst, tot_bind, tot_log, tot_ret.
      set (s1 := p_log _ _).
      assert (s_insts s1 !! i = Some y1) as Hy1.
      { unfold s1, p_log, p_inst. cbn. by rewrite lookup_alter, Hy. }
      assert (s_insts s1 = <[i := y1]> (s_insts s)) as Hi1.
      { unfold s1, p_log, p_inst. cbn. by rewrite (alter_at _ _ _ _ Hy). }
      assert (s_tis s1 = <[n := x0]> (s_tis s)) as Ht1 by done.
      assert (s_nti s1 = S n) as Hn1 by done. assert (s_queue s1 = s_queue s) as Hq1 by done.
      assert (s_wictr s1 = s_wictr s) as Hw1 by done. clearbody s1.
      assert (s_tis s1 !! n = Some x0) as Hx1 by (by rewrite Ht1, lookup_insert).
      eapply tot_bti; [exact Hx1|]. rewrite NC. cbn [andb].
      eapply tot_loc; [done|done|]. eapply loc_enter_leading; [done|done|]. intros l2 k2.
      eapply tot_loc; [apply put_inst|apply put_ti|]. apply loc_settings. intros m3 k3. rewrite put_put.
      eapply tot_loc; [apply put_inst|apply put_ti|]. apply loc_upd_ti. intros k4. rewrite put_put.
      set (x2 := set_ti_sched true _). cbn [app].
      apply tot_bind. unfold schedule_eval. eapply tot_bti; [apply put_ti|]. apply tot_bind, tot_get, tot_bind, tot_modify, tot_log.
      set (s2 := p_log _ _).
      assert (s_insts s2 = <[i := y1]> (s_insts s)) as Hi2 by (unfold s2, put; cbn; by rewrite Hi1, insert_insert).
      assert (s_tis s2 = <[n := x2]> (s_tis s)) as Ht2 by (unfold s2, put; cbn; by rewrite Ht1, insert_insert).
      assert (s_nti s2 = S n) as Hn2 by exact Hn1.
      assert (s_queue s2 = s_queue s ++ [(S (s_wictr s), n)]) as Hq2 by (unfold s2, put; cbn; by rewrite Hq1, Hw1).
      assert (s_wictr s2 = S (s_wictr s)) as Hw2 by (unfold s2, put; cbn; by rewrite Hw1).
      eapply tot_mono.
      { apply (IH s2 y1); [by rewrite Hi2, lookup_insert| |done]. intros tk' Htk'. destruct (Hts tk') as (? & ? & ?); [set_solver|].
        split_and!; [done..|]. cbn. rewrite lookup_insert_ne; [done|]. intros Heq. apply Hnin. rewrite Heq. by apply elem_of_list_fmap_1. }
      intros r s' [-> [(m & I1 & I2) I3 I4 I5 I6 I7]]. split; [done|]. clearbody s2. rewrite Hn2 in *. rewrite Hw2 in *.
      constructor.
      + exists m. split; [by rewrite I1, Hi2, insert_insert|]. intros id u. rewrite I2. cbn [y1 i_tasks set_i_tasks]. split.
        * intros [H|(k & tk' & Hk & Hid & ->)].
          -- apply lookup_insert_Some in H as [[<- <-]|[? ?]]; [|by left]. right. exists 0%nat, tk. split_and!; [done..|]. unfold n. lia.
          -- right. exists (S k), tk'. split_and!; [done..|]. unfold n. lia.
        * intros [H|(k & tk' & Hk & Hid & ->)].
          -- left. rewrite lookup_insert_ne; [done|]. intros <-. congruence.
          -- destruct k as [|k].
             ++ injection Hk as ->. left. rewrite <- Hid, lookup_insert. f_equal. unfold n. lia.
             ++ right. exists k, tk'. split_and!; [done..|]. unfold n. lia.
      + intros u Hu. rewrite I3 by (unfold n; lia). rewrite Ht2, lookup_insert_ne; [done|]. unfold n. lia.
      + intros k tk' Hk. destruct k as [|k].
        * injection Hk as <-. exists x2. rewrite I3 by (unfold n; lia). rewrite Ht2. replace (s_nti s + 0)%nat with n by (unfold n; lia).
          by rewrite lookup_insert.
        * destruct (I4 k tk' Hk) as (x' & Hx' & H). exists x'. split; [|done]. rewrite <- Hx'. f_equal. unfold n. lia.
      + rewrite I5. cbn [length]. unfold n. lia.
      + rewrite I6, Hq2. rewrite <- app_assoc. f_equal. cbn [imap app]. replace (S (s_wictr s + 0)) with (S (s_wictr s)) by lia.
        replace (s_nti s + 0)%nat with n by (unfold n; lia). f_equal. apply imap_ext. intros k ? _. cbn. f_equal; unfold n; lia.
      + rewrite I7. cbn [length]. lia.
  Qed.
End Starts.

Lemma error_obj_describes tk e : describes tk e (Some (error_obj (t_id tk) e)).
Proof.
  unfold describes, error_obj, error_source. destruct e; cbv zeta; eexists; (split; [reflexivity|]); split;
    rewrite ?elem_of_cons; auto.
Qed.

(** Queue entries are known. *)
Lemma imap_pending (s s' : st) (i : nat) (ts : list task) (f : nat -> nat) n :
  (forall k tk, ts !! k = Some tk -> exists x, s_tis s' !! (n + k)%nat = Some x /\ ti_inst x = i /\ ti_task x = tk) ->
  (fun p : nat * nat * string => (p.1.2, p.2)) <$>
    omap (fun p : nat * nat => (fun x => (p.1, ti_inst x, t_id (ti_task x))) <$> s_tis s' !! p.2) (imap (fun k _ => (f k, (n + k)%nat)) ts)
  = (fun tk => (i, t_id tk)) <$> ts.
Proof.
  revert n f. induction ts as [|tk ts IH]; intros n f H; [done|]. cbn [imap omap list_omap].
  destruct (H 0%nat tk) as (x & Hx & Hi & Ht); [done|]. cbn [fst snd]. rewrite Hx.
  change ((fun x => (f 0%nat, ti_inst x, t_id (ti_task x))) <$> Some x) with (Some (f 0%nat, ti_inst x, t_id (ti_task x))).
  cbv iota. rewrite !fmap_cons. cbn [fst snd]. rewrite Hi, Ht. f_equal. rewrite <- (IH (S n) (fun k => f (S k))).
  - f_equal. f_equal. apply imap_ext. intros k ? _. cbn. f_equal. lia.
  - intros k tk' Hk. destruct (H (S k) tk' Hk) as (x' & Hx' & ?). exists x'. split; [|done]. rewrite <- Hx'. f_equal. lia.
Qed.

Section Handler.
  Local Set Default Proof Using "Type*".
  Context (E : env) (d : defn) (uri : string).

  Lemma evaluates_reach s t x r s1 : running E d uri s -> evaluates E s t x r s1 -> reach E d uri (Some t) s1.
  Proof.
    intros R (Hm & Hx & Hs & Hd & w & q & Hq & Hr). apply running_reach in R as [c R].
    unfold main_status in Hm. destruct (s_insts s !! 0%nat) as [y|] eqn:Hy; [|done]. injection Hm as Ha.
    pose proof (popped_reach _ _ _ _ _ _ _ _ _ _ R Hq Hx Hy Ha) as R1.
    change s1 with (Ok r, s1).2. rewrite <- Hr.
    eapply (reach_wp _ _ _ _ _ _ T); [exact R1|].
    case_bool_decide; destruct (t_type (ti_task x)); simpl;
      auto using wp_basic_post, wp_iter_post, wp_dw_post, wp_basic_eval, wp_iter_eval, wp_dw_eval.
  Qed.

  (** The error reaches the error handler. *)
  Lemma handled_error t e s y x h :
    s_insts s !! 0%nat = Some y -> s_tis s !! t = Some x -> (t < s_nti s)%nat -> ti_inst x = 0%nat -> cov_ok E -> settings_ok E -> e_conc E = false ->
    no_error_link (ti_task x) -> i_handling y = false -> d_eh (i_def y) = Some h -> NoDup (t_id <$> start_tasks (eh_tasks h)) ->
    (forall tk, tk ∈ start_tasks (eh_tasks h) -> t_act tk <> None) ->
    tot (handle_task_error E t e) s (fun _ s' => exists s2 y2 x2,
      starts 0 y2 (start_tasks (eh_tasks h)) s2 s' /\
      i_status y2 = i_status y /\ i_handling y2 = true /\ i_tasks y2 = ∅ /\
      i_attrs y2 !! "_E" = Some (error_obj (t_id (ti_task x)) e) /\
      i_attrs y2 !! ("_E." +:+ t_id (ti_task x)) = Some (error_obj (t_id (ti_task x)) e) /\
      ti_inst x2 = 0%nat /\ ti_task x2 = ti_task x /\
      s_insts s2 = <[0%nat := y2]> (s_insts s) /\ s_tis s2 = <[t := x2]> (s_tis s) /\ s_nti s2 = s_nti s /\
      s_queue s2 = s_queue s /\ s_wictr s2 = s_wictr s).
  Proof.
    intros Hy Hx Ht Hi C SO NC Hn Hh Hd N Ha. unfold handle_task_error.
    eapply tot_loc; [done|done|]. apply loc_set_task_status. intros n1.
    eapply tot_loc; [apply put_inst|apply put_ti|]. apply loc_coverage; [done..|]. intros ls ev _ _ n2. rewrite put_put.
    eapply tot_loc; [apply put_inst|apply put_ti|]. apply (loc_no_error _ _ _ C); [done|done|]. intros ev' _ n3. rewrite put_put.
    eapply tot_bti; [apply put_ti|]. cbv zeta. cbn [fst snd ti_inst set_ti_status]. rewrite Hi.
    eapply tot_binst; [apply put_inst|]. cbn [lmap set_i_links i_handling]. rewrite Hh.
    eapply tot_loc; [apply put_inst|apply put_ti|]. apply loc_append_error; [done..|]. intros m1 m2 -> -> n4. rewrite put_put.
    unfold handle_global_error.
    eapply tot_binst; [apply put_inst|]. cbn [lmap set_i_links set_i_attrs i_handling i_def]. rewrite Hh, Hd.
    eapply tot_loc; [apply put_inst|apply put_ti|]. apply loc_upd_inst. intros n5. rewrite put_put.
    eapply tot_loc; [apply put_inst|apply put_ti|]. unfold clear_tasks. apply loc_binst, loc_bind, loc_upd_inst, loc_log. intros n6. rewrite put_put.
    set (y2 := set_i_tasks ∅ _). set (x2 := set_ti_status _ _). set (s2 := put _ _ _ _ _ _ s).
    unfold enter_top. apply tot_bind. eapply tot_binst; [apply put_inst|]. cbn [enter_tasks]. unfold with_lock. rewrite NC.
    eapply tot_mono.
    { apply (enter_starts E NC SO _ 0 (start_tasks (eh_tasks h)) s2 y2); [apply put_inst| |done].
      intros tk Htk. split_and!; [|by apply Ha|done].
      unfold start_tasks in Htk. apply elem_of_list_In, List.filter_In in Htk as [_ Htk]. destruct (t_from tk); done. }
    intros r s' [-> St]. apply tot_ret. exists s2, y2, x2. split_and!; try done.
    all: unfold y2; cbn [i_attrs i_handling i_status set_i_tasks set_i_handling set_i_attrs ti_task set_ti_status].
    - rewrite lookup_union_r by (by rewrite lookup_singleton_ne). apply lookup_union_Some_l, lookup_singleton.
    - apply lookup_union_Some_l, lookup_singleton.
  Qed.

  (** What a state looks like in which the error handler has taken over. *)
  Definition taken_over (h : ehandler) (x : tinst) (e : err) (s1 s' : st) : Prop :=
    exists y', s_insts s' !! 0%nat = Some y' /\ i_status y' = FActive /\ i_handling y' = true /\
      (fun p => (p.1.2, p.2)) <$> pending s' =
        ((fun p => (p.1.2, p.2)) <$> pending s1) ++ ((fun tk => (0%nat, t_id tk)) <$> start_tasks (eh_tasks h)) /\
      (forall id, is_Some (i_tasks y' !! id) <-> id ∈ t_id <$> start_tasks (eh_tasks h)) /\
      (forall id u, i_tasks y' !! id = Some u -> exists x', s_tis s' !! u = Some x' /\
         ti_status x' = TReady /\ t_id (ti_task x') = id /\ ti_task x' ∈ start_tasks (eh_tasks h)) /\
      describes (ti_task x) e (i_attrs y' !! "_E") /\
      describes (ti_task x) e (i_attrs y' !! ("_E." +:+ t_id (ti_task x))).
  Definition begins_handler (h : ehandler) (t : nat) (e : err) (s : st) (y : inst) (x : tinst) (s' : st) : Prop :=
    exists s2 y2 x2,
      starts 0 y2 (start_tasks (eh_tasks h)) s2 s' /\
      i_status y2 = i_status y /\ i_handling y2 = true /\ i_tasks y2 = ∅ /\
      i_attrs y2 !! "_E" = Some (error_obj (t_id (ti_task x)) e) /\
      i_attrs y2 !! ("_E." +:+ t_id (ti_task x)) = Some (error_obj (t_id (ti_task x)) e) /\
      ti_inst x2 = 0%nat /\ ti_task x2 = ti_task x /\
      s_insts s2 = <[0%nat := y2]> (s_insts s) /\ s_tis s2 = <[t := x2]> (s_tis s) /\ s_nti s2 = s_nti s /\
      s_queue s2 = s_queue s /\ s_wictr s2 = s_wictr s.

  Lemma begins_taken h t e s1 y1 x1 x s' :
    reach E d uri (Some t) s1 -> s_insts s1 !! 0%nat = Some y1 -> s_tis s1 !! t = Some x1 -> i_status y1 = FActive ->
    ti_inst x1 = 0%nat -> ti_task x1 = ti_task x -> begins_handler h t e s1 y1 x1 s' -> taken_over h x e s1 s'.
  Proof.
    intros R1 Hy1 Hx1 Ha1 Hi1 Ht1 (s2 & y2 & x2 & [(m & M1 & M2) O1 O2 _ O4 _] & S2 & H2 & T2 & A1 & A2 & X1 & X2 & Z1 & Z2 & Z3 & Z4 & Z5).
    pose proof (reach_fresh _ _ _ _ _ R1) as (F1 & _).
    assert (forall u z, s_tis s1 !! u = Some z -> (u < s_nti s1)%nat) as Hlt.
    { intros u z Hu. destruct (decide (s_nti s1 <= u)%nat) as [Hle|]; [|lia]. by rewrite (F1 u Hle) in Hu. }
    exists (set_i_tasks m y2). split_and!.
    - by rewrite M1, lookup_insert.
    - cbn. congruence.
    - done.
    - unfold pending at 1. rewrite O4, omap_app, fmap_app, Z3, Z4, Z5. f_equal.
      + f_equal. unfold pending. destruct (inv_rdy _ _ _ _ _ R1) as (_ & I & _).
        assert (forall p, p ∈ s_queue s1 -> (fun x => (p.1, ti_inst x, t_id (ti_task x))) <$> s_tis s' !! p.2 =
          (fun x => (p.1, ti_inst x, t_id (ti_task x))) <$> s_tis s1 !! p.2) as Hp.
        { intros [w' u] Hp. cbn [fst snd]. specialize (I w' u Hp). destruct (s_tis s1 !! u) as [z|] eqn:Hu.
          - rewrite O1 by (rewrite Z3; eauto). rewrite Z2. destruct (decide (u = t)) as [->|].
            + rewrite lookup_insert. rewrite Hx1 in Hu. injection Hu as <-. cbn. by rewrite X1, X2, Hi1.
            + by rewrite lookup_insert_ne, Hu.
          - destruct I as (? & ? & (z & Hz & _) & _). congruence. }
        revert Hp. clear. generalize (s_queue s1). intros l Hp. induction l as [|p l IH]; [done|]. cbn [omap list_omap].
        rewrite Hp by set_solver. destruct (_ <$> s_tis s1 !! p.2); [f_equal|]; apply IH; intros; apply Hp; set_solver.
      + apply imap_pending; [exact s1|]. intros k tk Hk. destruct (O2 k tk Hk) as (z & Hz & ? & ? & _). rewrite Z3 in Hz. eauto.
    - cbn. intros id. split.
      + intros [u Hu]. apply M2 in Hu. rewrite T2 in Hu. destruct Hu as [?|(k & tk & Hk & <- & _)]; [done|].
        apply elem_of_list_fmap_1. by eapply elem_of_list_lookup_2.
      + intros (tk & -> & Htk)%elem_of_list_fmap. apply elem_of_list_lookup in Htk as [k Hk]. eexists. apply M2. right. eauto.
    - cbn. intros id u Hu. apply M2 in Hu. rewrite T2 in Hu. destruct Hu as [?|(k & tk & Hk & <- & ->)]; [done|].
      destruct (O2 k tk Hk) as (z & Hz & ? & Hzt & ?). exists z. split_and!; [done|done|congruence|]. rewrite Hzt. by eapply elem_of_list_lookup_2.
    - cbn. rewrite A1, Ht1. apply error_obj_describes.
    - cbn. rewrite <- Ht1, A2. apply error_obj_describes.
  Qed.

  Lemma handler_starts h : built d -> d_eh d = Some h -> NoDup (t_id <$> start_tasks (eh_tasks h)).
  Proof.
    intros B Heh. destruct (built_graph _ B) as [_ G]. specialize (so_ids _ _ _ _ (G h Heh)) as N. unfold start_tasks.
    clear -N. induction (eh_tasks h) as [|a l IH]; [done|]. apply NoDup_cons in N as [N1 N2]. cbn [List.filter].
    destruct (match t_from a with [] => true | _ :: _ => false end); [|by apply IH]. apply NoDup_cons. split; [|by apply IH].
    intros (b & Hb & Hin)%elem_of_list_fmap. apply N1. rewrite Hb. apply elem_of_list_fmap_1.
    apply elem_of_list_In, List.filter_In in Hin as [Hin _]. by apply elem_of_list_In.
  Qed.

  Lemma handler_takes_over s t x e s1 h :
    running E d uri s -> built d -> cov_ok E -> settings_ok E -> e_conc E = false -> d_eh d = Some h ->
    (forall tk, tk ∈ start_tasks (eh_tasks h) -> t_act tk <> None) ->
    evaluates E s t x (inl e) s1 -> ti_inst x = 0%nat -> no_error_link (ti_task x) ->
    (forall y, s_insts s !! 0%nat = Some y -> i_handling y = false) ->
    taken_over h x e s1 (do_step E s).2.
  Proof.
    intros R B C SO NC Heh Hact Ev Hi Hn Hhd.
    pose proof (evaluates_reach _ _ _ _ _ R Ev) as R1.
    pose proof (evaluates_quiet _ _ _ _ _ _ _ _ R Ev) as (w & q & y & y1 & x1 & Hq & Hy & Hact' & Hdef & _ & _ & So & Hy1 & SF & Hx1 & Hi1 & Ht1).
    destruct SF as (_ & Sh & Ss & Sd & _).
    pose proof (reach_fresh _ _ _ _ _ R1) as (F1 & _).
    assert (t < s_nti s1)%nat as Hlt.
    { destruct (decide (s_nti s1 <= t)%nat) as [Hle|]; [|lia]. by rewrite (F1 t Hle) in Hx1. }
    assert (i_handling y1 = false) as Hh1 by (rewrite Sh; by apply Hhd).
    assert (d_eh (i_def y1) = Some h) as Hd1 by congruence.
    pose proof (handled_error t e s1 y1 x1 h Hy1 Hx1 Hlt ltac:(congruence) C SO NC ltac:(by rewrite Ht1) Hh1 Hd1 (handler_starts h B Heh) Hact) as Hto.
    rewrite (evaluates_step _ _ _ _ _ _ Ev). cbn [conclude].
    destruct (tot_run _ _ _ (tot_catch _ (exec_recover E t) _ _ Hto)) as (a & _ & H).
    eapply begins_taken; [exact R1|exact Hy1|exact Hx1|congruence|congruence|exact Ht1|exact H].
  Qed.
End Handler.

(** ** What is delivered when the flow has ended in a step *)
Lemma ended_delivered E ro d uri ins n y :
  let begun := (run_begin E ro ins (init_st d uri)).2 in
  (run_flow E ro d uri ins).1 = Ok tt -> s_insts (do_step E (laps E n begun)).2 !! 0%nat = Some y -> FCompleted <= i_status y ->
  Z.of_nat (S n) < ro_max ro - first_count ro ->
  exists l r k, delivered (run_flow E ro d uri ins).2 = l ++ r /\ last_results E ro k y r /\ k <> ro_max ro /\
    main_status (run_flow E ro d uri ins).2 = Some (i_status y).
Proof.
  cbv zeta. intros Hok Hy Hf Hn.
  destruct (run_ends E ro d uri ins (S n) y Hok) as (m & r & H1 & H2 & H3 & H4); [|done|done|eauto 10].
  rewrite laps_S. by rewrite (proj1 (lap_same E _)).
Qed.

Lemma failed_delivered E ro d uri ins n t x e s1 :
  let begun := (run_begin E ro ins (init_st d uri)).2 in
  (run_flow E ro d uri ins).1 = Ok tt -> (run_begin E ro ins (init_st d uri)).1 = Ok tt ->
  cov_ok E -> d_eh d = None -> evaluates E (laps E n begun) t x (inl e) s1 -> ti_inst x = 0%nat ->
  no_error_link (ti_task x) -> Z.of_nat (S n) < ro_max ro - first_count ro ->
  last (delivered (run_flow E ro d uri ins).2) = Some (None, Some e) /\
  main_status (run_flow E ro d uri ins).2 = Some FFailed.
Proof.
  cbv zeta. intros Hok Hb C Hd Ev Hi Hn Hlt.
  destruct (failure_stops E d uri _ t x e s1 (laps_running _ _ _ n _ (begin_running E ro d uri ins Hb)) C Hd Ev Hi Hn) as [(y & Hy & Hs & He) _].
  destruct (ended_delivered E ro d uri ins n y Hok Hy ltac:(rewrite Hs; done) Hlt) as (l & r & k & -> & Hl & Hk & Hm).
  rewrite Hm, Hs. split; [|done]. unfold last_results in Hl. rewrite (bool_decide_false _ Hk) in Hl. cbn [andb] in Hl. rewrite Hs in Hl.
  cbn in Hl. rewrite He in Hl. destruct Hl as [->|[-> _]]; rewrite last_app; done.
Qed.

Lemma retried_last c os r e : retried c os r -> last os = Some (Some e) -> r = inl e.
Proof.
  induction 1 as [c b|c e' He|c e' os r H1 H2 Hr IH]; cbn; [done|by intros [= ->]|]. intros Hl. apply IH. destruct Hr; done.
Qed.
Lemma activity_error E d uri s t x r s1 c e :
  running E d uri s -> evaluates E s t x r s1 -> ti_status x <> TWaiting -> t_type (ti_task x) = TBasic ->
  retries_left (ti_task x) (ti_wd x) c -> smooth E (ti_task x) ->
  last (outcomes (ti_inst x) (t_id (ti_task x)) (happened s s1)) = Some (Some e) -> r = inl e.
Proof.
  intros R Ev Hw Hty B Sm Hl. destruct (basic_calls E d uri s t x r s1 c R Ev Hw Hty B Sm) as (r0 & Hr & ->).
  by rewrite (retried_last _ _ _ _ Hr Hl).
Qed.

(** ** Return *)

(** The data a Return or Reply leaves in flow [i]: whether to finish, data and error. *)
Definition answer (i : nat) (e : event) (a : bool * option vmap * option err) : bool * option vmap * option err :=
  match e with
  | EvReturn j d er => if (j =? i)%nat then (true, d, er) else a
  | EvResult d _ => (a.1.1, d, a.2)
  | _ => a
  end.
Definition ans_of (y : inst) : bool * option vmap * option err := (i_force y, i_rdata y, i_rerr y).
Definition answers (i : nat) (s s' : st) : Prop :=
  exists l, s_log s' = l ++ s_log s /\ forall y, s_insts s !! i = Some y ->
    exists y', s_insts s' !! i = Some y' /\ ans_of y' = foldr (answer i) (ans_of y) l.

Lemma answers_same i s s' e : s_log s' = e ++ s_log s -> s_insts s' = s_insts s ->
  Forall (fun e => forall a, answer i e a = a) e -> answers i s s'.
Proof.
  intros Hl Hs F. exists e. split; [done|]. intros y Hy. exists y. rewrite Hs. split; [done|].
  clear Hl. induction F as [|a l Ha _ IH]; [done|]. cbn. by rewrite Ha, <- IH.
Qed.
Lemma answers_inst i f s l : (forall y, ans_of (f y) = foldr (answer i) (ans_of y) l) ->
  answers i s (set_s_log (l ++ s_log s) (p_inst i f s)).
Proof.
  intros Hf. exists l. split; [done|]. intros y Hy. exists (f y). cbn. rewrite lookup_alter, Hy. done.
Qed.
Lemma answers_leaves E t i tk : leaves E t i tk (answers i).
Proof.
  constructor; constructor.
  - intros s. by apply (answers_same i s s []).
  - intros a b c (l1 & H1 & I1) (l2 & H2 & I2). exists (l2 ++ l1). split; [by rewrite H2, H1, app_assoc|]. intros y Hy.
    destruct (I1 y Hy) as (y1 & Hy1 & A1). destruct (I2 y1 Hy1) as (y2 & Hy2 & A2). exists y2. split; [done|].
    by rewrite A2, A1, foldr_app.
  - intros s _. by apply (answers_same i _ _ []).
  - intros e s _ He. apply (answers_same i _ _ [e]); [done..|]. constructor; [|done]. by destruct e.
  - intros m s _ _ _. apply (answers_inst i (fun x => set_i_attrs (m ∪ i_attrs x) x) s [EvSet i m (e_track E)]). done.
  - intros f s _ _ _. by apply (answers_same i _ _ []).
  - intros v s _ _. by apply (answers_inst i (fun x => set_i_attrs ({[ "_A." +:+ t_id tk := v ]} ∪ i_attrs x) x) s [EvSet i {[ "_A." +:+ t_id tk := v ]} (e_track E)]).
  - intros d e s _. unfold reply, bind, get_inst, bind, get. destruct (s_insts s !! i) as [y|]; [|by apply (answers_same i _ _ [])].
    unfold ret at 1. destruct (i_handler y); [|by apply (answers_same i _ _ [])].
    by apply (answers_inst i (set_i_rdata d) s [EvResult d e]).
  - intros d e s _. apply (answers_inst i (fun x => set_i_force true (set_i_rdata d (set_i_rerr e x))) s [EvReturn i d e]).
    intros y. cbn. by rewrite Nat.eqb_refl.
  - intros u ins s [H Ho] _. destruct (quiet_sub_own E t i tk u ins s Ho H) as (Q & _ & I).
    split; [|split; [by eapply ti_is_quiet|by destruct (Q Ho)]].
    destruct (lg_start_subflow E start_ev (fun _ H => or_introl H) start_set t u ins s) as (l & Hl & F). exists l. split; [done|]. intros y Hy. exists y.
    split; [rewrite I; [done|]|].
    + destruct Ho as [_ O2]. destruct (decide (s_sfctr s < i)%nat) as [Hlt|]; [by rewrite (O2 i Hlt) in Hy|lia].
    + clear Hl. induction F as [|e l He _ IH]; [done|]. cbn. rewrite <- IH. destruct He as [[He|(? & ? & ->)]|(? & ? & ? & ->)]; [by destruct e|done..].
  - intros n v s _ _ _. by apply (answers_inst i (fun x => set_i_attrs ({[ n := v ]} ∪ i_attrs x) x) s [EvSet i {[ n := v ]} (e_track E)]).
  - intros ins it s x _ _ _ _. apply (answers_same i _ _ [EvAct i (t_id tk) ins it]); [done..|]. by constructor.
  - intros e s _. apply (answers_same i _ _ [EvActEnd i (t_id tk) e]); [done..|]. by constructor.
  - intros e s _ He. apply (answers_same i _ _ [e]); [done..|]. constructor; [|done]. by destruct e.
  - intros k w s _. by apply (answers_same i _ _ []).
  - intros s x z _ _ _ _. apply (answers_same i _ _ [EvTaskUpd (ti_inst x) (t_id (ti_task x)) z]); [done..|]. by constructor.
Qed.

(** An evaluation does not mark its task as skipped. *)
Definition unskipped (t : nat) (s s' : st) : Prop :=
  forall x, s_tis s !! t = Some x -> ti_status x <> TSkipped -> exists x', s_tis s' !! t = Some x' /\ ti_status x' <> TSkipped.
Lemma unskipped_leaves E t i tk : leaves E t i tk (unskipped t).
Proof.
  assert (forall s s', s_tis s' !! t = s_tis s !! t -> unskipped t s s') as Hs.
  { intros s s' H x Hx Hn. exists x. by rewrite H. }
  assert (forall f s, (forall x, ti_status x <> TSkipped -> ti_status (f x) <> TSkipped) -> unskipped t s (p_ti t f s)) as Ht.
  { intros f s Hf x Hx Hn. exists (f x). cbn. rewrite lookup_alter, Hx. split; [done|auto]. }
  constructor; constructor; try (intros; by apply Hs).
  - intros a b c H1 H2 x Hx Hn. destruct (H1 x Hx Hn) as (x1 & Hx1 & Hn1). eauto.
  - intros f s _ Hf _. apply Ht. intros x Hn. by destruct (Hf x) as (_ & _ & -> & _).
  - intros d e s _. apply Hs. unfold reply, bind, get_inst, bind, get. destruct (s_insts s !! i) as [y|]; [|done].
    unfold ret at 1. by destruct (i_handler y).
  - intros u ins s [H Ho] _. destruct (quiet_sub_own E t i tk u ins s Ho H) as (Q & H1 & _).
    split; [by apply Hs|split; [by eapply ti_is_quiet|by destruct (Q Ho)]].
  - intros k w s _. by apply Ht.
  - intros s x z _ Hx Hz _. intros x' Hx' Hn. exists (set_ti_status z x). unfold p_tstat. cbn. rewrite lookup_alter, Hx. split; [done|].
    cbn. by destruct Hz as [->|[->| ->]].
Qed.

Lemma graph_out d tk : graph_ok d -> tk ∈ all_tasks d ->
  NoDup (l_id <$> t_to tk) /\ forall l, l ∈ t_to tk -> exists tk', link_target d l = Some tk'.
Proof.
  intros G Htk. assert (G' := G). destruct (graph_tasks d tk G Htk) as (n & ts & ls & S & Hin & Hall & Hl1 & Hl2). split.
  - rewrite (so_to _ _ _ _ S tk Hin). assert (NoDup (l_id <$> ls)) as N by (rewrite (so_num _ _ _ _ S); apply NoDup_seq).
    clear -N. induction ls as [|a l IH]; [constructor|]. apply NoDup_cons in N as [N1 N2]. cbn [List.filter].
    destruct (String.eqb _ _); [|by apply IH]. apply NoDup_cons. split; [|by apply IH].
    intros (b & Hb & Hi)%elem_of_list_fmap. apply N1. rewrite Hb. apply elem_of_list_fmap_1.
    apply elem_of_list_In, List.filter_In in Hi as [Hi _]. by apply elem_of_list_In.
  - intros l Hl. rewrite (so_to _ _ _ _ S tk Hin) in Hl. apply elem_of_list_In, List.filter_In in Hl as [Hl _]. apply elem_of_list_In in Hl.
    destruct (graph_ends d l G (Hl1 l Hl)) as (a & b & _ & Hb & _ & Hbi & _ & Hbe).
    unfold link_target. unfold all_tasks in Hb. destruct G as [G1 G2]. apply elem_of_app in Hb as [Hb|Hb].
    + rewrite <- Hbe, (so_eh _ _ _ _ G1 b Hb). unfold get_task. rewrite <- Hbi. exists b. by eapply find_task_unique.
    + destruct (d_eh d) as [h|] eqn:Hh; [|by apply elem_of_nil in Hb]. rewrite <- Hbe, (so_eh _ _ _ _ (G2 h eq_refl) b Hb).
      unfold get_eh_task. rewrite Hh, <- Hbi. exists b. eapply find_task_unique; [by apply G2|done].
Qed.

Lemma inv_host E d uri c s : reach E d uri c s -> forall i d' h, inst_is s i d' h -> i <> 0%nat -> exists t, h = Some t.
Proof.
  revert c s. apply (reach_inv E d uri (fun c s => forall i d' h, inst_is s i d' h -> i <> 0%nat -> exists t, h = Some t)).
  - intros i d' h (y & Hy & _) Hi. cbn [s_insts init_st] in Hy. by apply lookup_singleton_Some in Hy as [<- _].
  - intros c s c' s' _ _ IH St i d' h H Hi. destruct St as [c s s' St| | | |].
    + destruct (astep_inst_is _ _ _ _ _ _ _ St H) as [H'|(t & n & u & x & _ & -> & _)]; [exact (IH _ _ _ H' Hi)|by exists t].
    + exact (IH _ _ _ H Hi).
    + exact (IH _ _ _ H Hi).
    + apply inst_is_p_inst in H; [|done]. exact (IH _ _ _ H Hi).
    + exact (IH _ _ _ H Hi).
Qed.

Section Return.
  Local Set Default Proof Using "Type*".
  Context (E : env) (d : defn) (uri : string).

  Lemma loc_done_any i t y x (Q : err + bool * list entry -> inst -> tinst -> list event -> Prop) :
    cov_ok E -> links_ok E -> ti_inst x = i -> graph_ok (i_def y) -> ti_task x ∈ all_tasks (i_def y) ->
    (forall m n es ev, Q (inr (n, es)) (set_i_links m y) (set_ti_status TDone x) ev) ->
    loc i t (beh_done E t) y x Q.
  Proof.
    intros C L Hi G Htk HQ. destruct (graph_out _ _ G Htk) as [N T]. destruct (decide (t_to (ti_task x) = [])) as [He|Hne].
    - eapply loc_mono; [by apply loc_done_end|]. intros r y' x' ev (-> & -> & -> & _). specialize (HQ (i_links y) true [] ev). by destruct y.
    - eapply loc_mono; [by apply (loc_done E i t C L)|]. intros r y' x' ev (-> & es & v & ev0 & -> & D & _). rewrite (dp_y _ _ _ _ _ _ _ _ D). apply HQ.
  Qed.

  Lemma forced_done ent i t y x s Q :
    s_insts s !! i = Some y -> s_tis s !! t = Some x -> ti_status x <> TSkipped ->
    cov_ok E -> links_ok E -> ti_inst x = i -> graph_ok (i_def y) -> ti_task x ∈ all_tasks (i_def y) -> i_force y = true ->
    (forall m l n, tot (complete_flow E i ;; release_task i (ti_task x)) (put i t (set_i_links m y) (set_ti_status TDone x) l n s) Q) ->
    tot (handle_task_done E ent t) s Q.
  Proof.
    intros Hy Hx Hs C L Hi G Htk Hf HQ. unfold handle_task_done. eapply tot_bti; [done|]. cbv zeta. rewrite bool_decide_false by done.
    rewrite Hi. eapply tot_loc; [done|done|]. apply loc_bind, loc_done_any; [done..|]. intros m n es ev.
    apply loc_bind, loc_coverage; [done..|]. intros ls ev1 _ _. apply loc_ret. intros n1.
    apply tot_bind. eapply (tot_mono _ _ (fun b s' => s' = put i t (lmap (made ls) (set_i_links m y)) (set_ti_status TDone x) (([] ++ ev1) ++ ev) n1 s)).
    { destruct n; [|by apply tot_ret]. unfold flow_task_done. apply tot_bind, tot_get. eapply tot_binst; [apply put_inst|]. by apply tot_ret. }
    intros b s' ->. eapply tot_binst; [apply put_inst|]. cbn [i_force lmap set_i_links]. rewrite Hf, orb_true_r. apply HQ.
  Qed.

  (** What a Return leaves in its flow. *)
  Lemma returned s t x r s1 l1 dt er l2 :
    running E d uri s -> built d -> built_env E -> evaluates E s t x r s1 ->
    happened s s1 = l1 ++ EvReturn (ti_inst x) dt er :: l2 ->
    (forall j a b, EvReturn j a b ∉ l2) -> (forall a b, EvResult a b ∉ l2) ->
    exists y1 x1, s_insts s1 !! ti_inst x = Some y1 /\ s_tis s1 !! t = Some x1 /\ ti_inst x1 = ti_inst x /\ ti_task x1 = ti_task x /\
      ti_status x1 <> TSkipped /\ ans_of y1 = (true, dt, er) /\ graph_ok (i_def y1) /\ ti_task x ∈ all_tasks (i_def y1).
  Proof.
    intros R B BE Ev Hh H1 H2. pose proof (evaluates_reach E d uri _ _ _ _ _ R Ev) as R1.
    destruct (evaluates_quiet _ _ _ _ _ _ _ _ R Ev) as (w & q & y & y1 & x1 & Hq & Hy & Ha & _ & _ & Ho & _ & _ & _ & Hx1 & Hi1 & Ht1).
    assert (Ev' := Ev). destruct Ev' as (_ & Hx & Hs & _ & w' & q' & Hq' & Hr). rewrite Hq in Hq'. injection Hq' as <- <-.
    change (set_s_log _ _) with (popped w t x q s) in Hr.
    assert (ti_is (popped w t x q s) t (ti_inst x) (ti_task x)) as Hti by (exists x; done).
    assert (answers (ti_inst x) (popped w t x q s) s1 /\ unskipped t (popped w t x q s) s1) as [A U].
    { change s1 with (Ok r, s1).2. rewrite <- Hr. case_bool_decide; split.
      - by apply (rq_beh_post E t _ _ _ (answers_leaves E t _ _)).
      - by apply (rq_beh_post E t _ _ _ (unskipped_leaves E t (ti_inst x) _)).
      - by apply (rq_beh_eval E t _ _ _ (answers_leaves E t _ _)).
      - by apply (rq_beh_eval E t _ _ _ (unskipped_leaves E t (ti_inst x) _)). }
    assert (Rp := R). apply running_reach in Rp as [c Rp].
    destruct (inv_task _ _ _ _ _ Rp t (ti_inst x) (ti_task x) ltac:(exists x; done)) as (d' & hh & (y0 & Hy0 & Hd0 & _) & _).
    destruct A as (l & Hl & A). destruct (A y0 Hy0) as (y2 & Hy2 & A2).
    destruct (inv_task _ _ _ _ _ R1 t (ti_inst x) (ti_task x)) as (d2 & hh2 & (y2' & Hy2' & Hd2 & Hh2) & Hin & _); [exists x1; done|].
    rewrite Hy2 in Hy2'. injection Hy2' as <-.
    destruct (U x Hx Hs) as (x1' & Hx1' & Hsk). rewrite Hx1 in Hx1'. injection Hx1' as <-.
    exists y2, x1. split_and!; try done.
    - rewrite A2. assert (l = rev l2 ++ EvReturn (ti_inst x) dt er :: rev (tail l1)) as ->.
      { unfold happened, trace in Hh. rewrite Hl in Hh.
        change (s_log (popped w t x q s)) with (EvQDel w (ti_inst x) (t_id (ti_task x)) :: s_log s) in Hh.
        rewrite rev_app_distr in Hh. cbn [rev] in Hh. rewrite <- app_assoc, drop_app in Hh. cbn [app] in Hh.
        destruct l1 as [|e l1]; [done|]. cbn [app] in Hh. injection Hh as <- Hh. cbn [tail].
        rewrite <- (rev_involutive l), Hh, rev_app_distr. cbn [rev]. by rewrite <- app_assoc. }
      rewrite foldr_app. cbn [foldr]. unfold answer at 2. rewrite Nat.eqb_refl.
      assert (forall e, e ∈ rev l2 -> forall a, answer (ti_inst x) e a = a) as Hno.
      { intros e He a. apply in_rev_elem in He. rewrite rev_involutive in He. destruct e; try done; [by apply H1 in He|by apply H2 in He]. }
      revert Hno. generalize (rev l2). clear. intros l Hno. induction l as [|e l IH]; [done|]. cbn.
      rewrite Hno by (by left). apply IH. intros. apply Hno. by right.
    - eapply (inv_graph _ _ _ B BE); [exact R1|]. exists y2. done.
    - by rewrite Hd2.
  Qed.

  Lemma return_completes s t x s1 l1 dt er l2 :
    running E d uri s -> built d -> built_env E -> cov_ok E -> links_ok E -> evaluates E s t x (inr EvalDone) s1 -> ti_inst x = 0%nat ->
    happened s s1 = l1 ++ EvReturn 0 (Some dt) er :: l2 ->
    (forall j a b, EvReturn j a b ∉ l2) -> (forall a b, EvResult a b ∉ l2) ->
    (exists y, s_insts (do_step E s).2 !! 0%nat = Some y /\ i_status y = FCompleted /\ i_rdata y = Some dt /\ i_rerr y = er) /\
    (forall n, evaluations (after E n (do_step E s).2) = evaluations s1).
  Proof.
    intros R B BE C L Ev Hi Hh H1 H2. rewrite <- Hi in Hh.
    destruct (returned s t x _ s1 l1 (Some dt) er l2 R B BE Ev Hh H1 H2) as (y1 & x1 & Hy1 & Hx1 & Hi1 & Ht1 & Hs1 & A & G & Hin).
    rewrite Hi in Hy1. unfold ans_of in A. injection A as Af Ad Ae.
    assert (exists y, s_insts (do_step E s).2 !! 0%nat = Some y /\ i_status y = FCompleted /\ i_rdata y = Some dt /\ i_rerr y = er) as H.
    { rewrite (evaluates_step _ _ _ _ _ _ Ev). cbn [conclude]. unfold task_done.
      cut (tot (handle_task_done E (enter_top E) t) s1 (fun _ s' =>
        exists y, s_insts s' !! 0%nat = Some y /\ i_status y = FCompleted /\ i_rdata y = Some dt /\ i_rerr y = er)).
      { intros Ht. destruct (tot_run _ _ _ (tot_catch _ (exec_recover E t) _ _ Ht)) as (a & _ & H). done. }
      eapply forced_done; [done|done|done|done|done|congruence|done|congruence|done|]. intros m l n.
      eapply tot_mono.
      { eapply (loc_run 0 t _ _ _ _ (fun _ y' _ _ => i_status y' = FCompleted /\ i_rdata y' = Some dt /\ i_rerr y' = er)); [|apply put_inst|apply put_ti].
        apply loc_bind. unfold complete_flow. apply loc_bind, loc_set_flow_status. cbn [Nat.eqb]. apply loc_log, loc_release. cbn [i_status i_rdata i_rerr lmap set_i_links set_i_tasks].
        destruct (posted_fields E FCompleted (set_i_status FCompleted (set_i_links m y1))) as (_ & _ & -> & _ & _ & _ & _ & -> & _ & _ & _ & P).
        cbn. split_and!; [done|by apply P|done]. }
      intros [] s' (y' & x' & l' & n' & -> & H). exists y'. by rewrite put_inst. }
    split; [done|]. intros n. destruct H as (y' & Hy' & Hs' & _).
    rewrite (ended_stays E n _ FCompleted); [|unfold main_status; by rewrite Hy', <- Hs'|done].
    change (evaluations (do_step E s).2 = evaluations s1). by eapply step_evaluations.
  Qed.

  (** A Return in a subflow: the host task gets the data and is scheduled. *)
  Lemma return_to_host s t x s1 l1 dt er l2 :
    running E d uri s -> built d -> built_env E -> cov_ok E -> links_ok E -> evaluates E s t x (inr EvalDone) s1 -> ti_inst x <> 0%nat ->
    happened s s1 = l1 ++ EvReturn (ti_inst x) (Some dt) er :: l2 ->
    (forall j a b, EvReturn j a b ∉ l2) -> (forall a b, EvResult a b ∉ l2) ->
    exists y ht xh w, s_insts (do_step E s).2 !! ti_inst x = Some y /\ i_status y = FCompleted /\ i_host y = Some ht /\
      s_tis (do_step E s).2 !! ht = Some xh /\ ti_out xh = dt /\ ti_rerr xh = None /\ s_queue (do_step E s).2 = s_queue s1 ++ [(w, ht)].
  Proof.
    intros R B BE C L Ev Hi Hh H1 H2. pose proof (evaluates_reach E d uri _ _ _ _ _ R Ev) as R1.
    destruct (returned s t x _ s1 l1 (Some dt) er l2 R B BE Ev Hh H1 H2) as (y1 & x1 & Hy1 & Hx1 & Hi1 & Ht1 & Hs1 & A & G & Hin).
    unfold ans_of in A. injection A as Af Ad Ae. set (i := ti_inst x) in *.
    assert (exists ht xh, i_host y1 = Some ht /\ s_tis s1 !! ht = Some xh) as (ht & xh & Hht & Hxh).
    { destruct (inv_host E d uri _ _ R1 i (i_def y1) (i_host y1)) as [ht Hht]; [by exists y1|done|]. exists ht.
      destruct (inv_rdy _ _ _ _ _ R1) as (_ & _ & I). destruct (I i (i_def y1) ht) as (? & ? & (xh & Hxh & _) & _); [exists y1; by rewrite <- Hht|].
      by exists xh. }
    rewrite (evaluates_step _ _ _ _ _ _ Ev). cbn [conclude]. unfold task_done.
    cut (tot (handle_task_done E (enter_top E) t) s1 (fun _ s' =>
      exists y ht xh w, s_insts s' !! i = Some y /\ i_status y = FCompleted /\ i_host y = Some ht /\
        s_tis s' !! ht = Some xh /\ ti_out xh = dt /\ ti_rerr xh = None /\ s_queue s' = s_queue s1 ++ [(w, ht)])).
    { intros Ht. destruct (tot_run _ _ _ (tot_catch _ (exec_recover E t) _ _ Ht)) as (a & _ & H). done. }
    eapply forced_done; [done|done|done|done|done|congruence|done|congruence|done|]. intros m l n.
    apply tot_bind. unfold complete_flow. eapply tot_loc; [apply put_inst|apply put_ti|]. apply loc_set_flow_status. intros n1. rewrite put_put.
    destruct (posted_fields E FCompleted (set_i_status FCompleted (set_i_links m y1))) as (P1 & _ & P3 & _ & _ & _ & _ & _ & _ & _ & _ & P).
    set (y2 := posted _ _ _) in *. destruct (Nat.eqb_spec i 0) as [|_]; [done|].
    set (s2 := put _ _ _ _ _ _ _).
    eapply tot_binst; [apply put_inst|]. rewrite P1. cbn [i_host set_i_status set_i_links]. rewrite Hht. cbn in P. rewrite (P _ Ad).
    assert (exists xh2, s_tis s2 !! ht = Some xh2) as [xh2 Hxh2].
    { unfold s2. destruct (decide (ht = t)) as [->|]; [rewrite put_ti|rewrite put_ti_ne by done]; eauto. }
    assert (s_insts s2 !! i = Some y2) as Hy2 by apply put_inst.
    assert (s_queue s2 = s_queue s1) as Hq2 by done. clearbody s2.
    apply tot_bind, tot_bind, tot_upd_ti. cbn [Nat.eqb]. apply tot_bind, tot_log. unfold schedule_eval.
    eapply tot_bti; [cbn; by rewrite lookup_alter, Hxh2|]. apply tot_bind, tot_get, tot_bind, tot_modify, tot_log, tot_modify.
    set (s3 := set_s_subs _ _).
    assert (s_insts s3 !! i = Some y2) as Hy3 by exact Hy2.
    assert (exists xh3, s_tis s3 !! ht = Some xh3 /\ ti_out xh3 = dt /\ ti_rerr xh3 = None) as (xh3 & Hxh3 & Hout & Hrerr).
    { unfold s3. cbn. rewrite lookup_alter, Hxh2. eexists. split; [done|]. done. }
    assert (exists w, s_queue s3 = s_queue s1 ++ [(w, ht)]) as [w Hw].
    { unfold s3. cbn. rewrite Hq2. eauto. }
    clearbody s3. eapply tot_mono.
    { eapply (loc_run i ht _ _ _ _ (fun _ y' x' _ => i_status y' = FCompleted /\ i_host y' = Some ht /\ x' = xh3)); [|done|done].
      apply loc_release. cbn. rewrite P1, P3. done. }
    intros [] s' (y' & x' & l' & n' & -> & ? & ? & ->). exists y', ht, xh3, w. rewrite put_inst, put_ti. done.
  Qed.
End Return.

Lemma return_delivered E ro d uri ins n t x s1 l1 dt er l2 :
  let begun := (run_begin E ro ins (init_st d uri)).2 in
  (run_flow E ro d uri ins).1 = Ok tt -> (run_begin E ro ins (init_st d uri)).1 = Ok tt ->
  built d -> built_env E -> cov_ok E -> links_ok E -> evaluates E (laps E n begun) t x (inr EvalDone) s1 -> ti_inst x = 0%nat ->
  happened (laps E n begun) s1 = l1 ++ EvReturn 0 (Some dt) er :: l2 ->
  (forall j a b, EvReturn j a b ∉ l2) -> (forall a b, EvResult a b ∉ l2) ->
  Z.of_nat (S n) < ro_max ro - first_count ro ->
  last (delivered (run_flow E ro d uri ins).2) = Some (Some dt, er) /\
  main_status (run_flow E ro d uri ins).2 = Some FCompleted.
Proof.
  cbv zeta. intros Hok Hb B BE C L Ev Hi Hh H1 H2 Hlt.
  destruct (return_completes E d uri _ t x s1 l1 dt er l2 (laps_running _ _ _ n _ (begin_running E ro d uri ins Hb)) B BE C L Ev Hi Hh H1 H2) as [(y & Hy & Hs & Hd & He) _].
  destruct (ended_delivered E ro d uri ins n y Hok Hy ltac:(rewrite Hs; done) Hlt) as (l & r & k & -> & Hl & Hk & Hm).
  rewrite Hm, Hs. split; [|done]. unfold last_results in Hl. rewrite (bool_decide_false _ Hk) in Hl. cbn [andb] in Hl. rewrite (bool_decide_true _ Hs) in Hl. subst r. rewrite last_app. cbn. unfold result_data. by rewrite Hd, He.
Qed.
