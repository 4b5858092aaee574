(** What single engine functions do, exactly (proofs; no Go counterpart). *)
From Verif Require Export Frame Life.
Local Open Scope Z_scope.

(** Changing nothing. *)
Lemma p_inst_same i f s y : s_insts s !! i = Some y -> f y = y -> p_inst i f s = s.
Proof.
  intros Hy Hf. unfold p_inst. replace (alter f i (s_insts s)) with (s_insts s); [by destruct s|].
  apply map_eq. intros j. destruct (decide (j = i)) as [->|].
  - by rewrite lookup_alter, Hy; simpl; rewrite Hf.
  - by rewrite lookup_alter_ne.
Qed.
Lemma p_ti_same t f s x : s_tis s !! t = Some x -> f x = x -> p_ti t f s = s.
Proof.
  intros Hy Hf. unfold p_ti. replace (alter f t (s_tis s)) with (s_tis s); [by destruct s|].
  apply map_eq. intros j. destruct (decide (j = t)) as [->|].
  - by rewrite lookup_alter, Hy; simpl; rewrite Hf.
  - by rewrite lookup_alter_ne.
Qed.
Lemma p_inst_at i f s : s_insts (p_inst i f s) !! i = f <$> s_insts s !! i.
Proof. apply lookup_alter. Qed.
Lemma p_inst_ne i j f s : i <> j -> s_insts (p_inst i f s) !! j = s_insts s !! j.
Proof. apply lookup_alter_ne. Qed.
Lemma p_ti_at t f s : s_tis (p_ti t f s) !! t = f <$> s_tis s !! t.
Proof. apply lookup_alter. Qed.
Lemma p_ti_ne t u f s : t <> u -> s_tis (p_ti t f s) !! u = s_tis s !! u.
Proof. apply lookup_alter_ne. Qed.

(** ** Running a computation to its end *)

Definition tot {A} (m : M A) (s : st) (Q : A -> st -> Prop) : Prop :=
  exists a s', m s = (Ok a, s') /\ Q a s'.

Lemma tot_bind {A B} (m : M A) (k : A -> M B) s Q :
  tot m s (fun a s' => tot (k a) s' Q) -> tot (bind m k) s Q.
Proof.
  intros (a & s1 & Hm & b & s2 & Hk & HQ). exists b, s2. split; [|done]. unfold bind. by rewrite Hm.
Qed.
Lemma tot_mono {A} (m : M A) s (Q R : A -> st -> Prop) :
  tot m s Q -> (forall a s', Q a s' -> R a s') -> tot m s R.
Proof. intros (a & s1 & Hm & HQ) HR. exists a, s1. auto. Qed.
Lemma tot_ret {A} (a : A) s (Q : A -> st -> Prop) : Q a s -> tot (ret a) s Q.
Proof. by exists a, s. Qed.
Lemma tot_eq {A} (m : M A) s a s' (Q : A -> st -> Prop) : m s = (Ok a, s') -> Q a s' -> tot m s Q.
Proof. by exists a, s'. Qed.
Lemma tot_get s (Q : st -> st -> Prop) : Q s s -> tot get s Q.
Proof. by exists s, s. Qed.
Lemma tot_get_inst i y s (Q : inst -> st -> Prop) : s_insts s !! i = Some y -> Q y s -> tot (get_inst i) s Q.
Proof. intros Hy H. exists y, s. split; [|done]. unfold get_inst, bind, get. by rewrite Hy. Qed.
Lemma tot_get_ti t x s (Q : tinst -> st -> Prop) : s_tis s !! t = Some x -> Q x s -> tot (get_ti t) s Q.
Proof. intros Hy H. exists x, s. split; [|done]. unfold get_ti, bind, get. by rewrite Hy. Qed.
Lemma tot_upd_inst i f s (Q : unit -> st -> Prop) : Q tt (p_inst i f s) -> tot (upd_inst i f) s Q.
Proof. by eexists _, _. Qed.
Lemma tot_upd_ti t f s (Q : unit -> st -> Prop) : Q tt (p_ti t f s) -> tot (upd_ti t f) s Q.
Proof. by eexists _, _. Qed.
Lemma tot_log e s (Q : unit -> st -> Prop) : Q tt (p_log e s) -> tot (log_ev e) s Q.
Proof. by eexists _, _. Qed.
Lemma tot_modify f s (Q : unit -> st -> Prop) : Q tt (f s) -> tot (modify f) s Q.
Proof. by eexists _, _. Qed.
Lemma tot_run {A} (m : M A) s Q : tot m s Q -> (exists a, (m s).1 = Ok a /\ Q a (m s).2).
Proof. intros (a & s1 & Hm & HQ). exists a. by rewrite Hm. Qed.
Lemma tot_catch {A} (m : M A) h s Q : tot m s Q -> tot (catch m h) s Q.
Proof. intros (a & s1 & Hm & HQ). exists a, s1. split; [|done]. unfold catch. by rewrite Hm. Qed.

(** ** Flow status and return data *)

(** GetReturnData stores what it computes. *)
Definition cached (y : inst) : inst :=
  set_i_rdata (match i_rdata y with
               | Some d => Some d
               | None => match d_md (i_def y) with
                         | Some (mk_md _ (Some mdo)) => Some (make_rdata mdo (i_attrs y))
                         | _ => None end
               end) y.

Lemma get_return_data_eq i s y : s_insts s !! i = Some y ->
  get_return_data i s = (Ok (i_rdata (cached y), i_rerr y), p_inst i cached s).
Proof.
  intros Hy. unfold get_return_data. unfold bind at 1, get_inst, bind at 1, get. rewrite Hy. unfold ret at 1.
  unfold cached at 1. destruct (i_rdata y) as [d|] eqn:Hr; simpl.
  - unfold ret. f_equal. symmetry. apply (p_inst_same _ _ _ y Hy). unfold cached. rewrite Hr. destruct y; simpl in *; by subst.
  - destruct (d_md (i_def y)) as [[mi [mo|]]|] eqn:Hm; simpl.
    + unfold bind, upd_inst, modify, ret. f_equal. unfold p_inst. f_equal. apply map_eq. intros j.
      destruct (decide (j = i)) as [->|]; [|by rewrite !lookup_alter_ne]. rewrite !lookup_alter, Hy. simpl. f_equal.
      unfold cached. rewrite Hr, Hm. done.
    + unfold ret. f_equal. symmetry. apply (p_inst_same _ _ _ y Hy). unfold cached. rewrite Hr, Hm. destruct y; simpl in *; by subst.
    + unfold ret. f_equal. symmetry. apply (p_inst_same _ _ _ y Hy). unfold cached. rewrite Hr, Hm. destruct y; simpl in *; by subst.
Qed.

(** A listener sees every status of a flow but the first, with its return data. *)
Definition posted (E : env) (z : Z) (y : inst) : inst :=
  if e_listener E && negb (bool_decide (z = FNotStarted)) then cached y else y.

(** What it is told; [y]: the flow instance with its new status. *)
Definition notice (E : env) (i : nat) (y : inst) : list event :=
  if e_listener E then [flow_event i y (if bool_decide (i_status y = FNotStarted) then None else i_rdata (cached y))] else [].
Definition p_tell (l : list event) (s : st) : st := set_s_log (l ++ s_log s) s.
Lemma notice_in E i y e : e ∈ notice E i y -> exists ins outs r, e = EvFlowEvent i (i_status y) ins outs r.
Proof. unfold notice. destruct (e_listener E); [|by intros ?%elem_of_nil]. intros ->%elem_of_list_singleton. by repeat eexists. Qed.
Lemma notice_posted E i z y : notice E i (posted E z y) = notice E i y.
Proof.
  unfold posted, notice. destruct (e_listener E); [|done]. simpl. destruct (negb _); [|done]. unfold flow_event, cached. simpl.
  destruct (i_rdata y); [done|]. by destruct (d_md (i_def y)) as [[? []]|].
Qed.

Lemma set_flow_status_eq E i z s y : s_insts s !! i = Some y ->
  set_flow_status E i z s = (Ok tt, p_tell (notice E i (set_i_status z y)) (p_inst i (posted E z) (p_fstat i z s))).
Proof.
  intros Hy. unfold set_flow_status, bind at 1, get_inst, bind at 1, get. rewrite Hy. unfold ret at 1.
  change ((upd_inst i (set_i_status z) ;; log_ev (EvFlowStatus i z) ;; post_flow_event E i) s)
    with (post_flow_event E i (p_fstat i z s)).
  assert (s_insts (p_fstat i z s) !! i = Some (set_i_status z y)) as H1.
  { unfold p_fstat. cbn. by rewrite lookup_alter, Hy. }
  unfold post_flow_event, posted, notice. destruct (e_listener E); simpl.
  - unfold bind at 1, get_inst, bind at 1, get. rewrite H1. unfold ret at 1. cbn [i_status set_i_status].
    case_bool_decide; simpl.
    + unfold bind, ret, log_ev, modify, p_tell. f_equal. by rewrite (p_inst_same _ _ _ _ H1).
    + unfold bind. by rewrite (get_return_data_eq _ _ _ H1).
  - unfold ret, p_tell. f_equal. rewrite (p_inst_same _ _ _ _ H1) by done. by destruct s.
Qed.
Lemma tot_set_flow_status E i z s y (Q : unit -> st -> Prop) : s_insts s !! i = Some y ->
  Q tt (p_tell (notice E i (set_i_status z y)) (p_inst i (posted E z) (p_fstat i z s))) -> tot (set_flow_status E i z) s Q.
Proof. intros Hy HQ. eexists _, _. split; [by eapply set_flow_status_eq|done]. Qed.

Lemma posted_fields E z y :
  i_host (posted E z y) = i_host y /\ i_handling (posted E z y) = i_handling y /\ i_status (posted E z y) = i_status y /\
  i_def (posted E z y) = i_def y /\ i_tasks (posted E z y) = i_tasks y /\ i_links (posted E z y) = i_links y /\
  i_force (posted E z y) = i_force y /\ i_rerr (posted E z y) = i_rerr y /\ i_attrs (posted E z y) = i_attrs y /\
  i_handler (posted E z y) = i_handler y /\ i_uri (posted E z y) = i_uri y /\
  (forall d, i_rdata y = Some d -> i_rdata (posted E z y) = Some d).
Proof. unfold posted, cached. destruct (_ && _); simpl; split_and!; try done. by intros d ->. Qed.

Lemma set_attrs_eq tr i m s y : s_insts s !! i = Some y -> set_attrs tr i m s = (Ok tt, p_set tr i m s).
Proof. intros Hy. unfold set_attrs, bind at 1, get_inst, bind at 1, get. by rewrite Hy. Qed.
Lemma p_set_at tr i m s : s_insts (p_set tr i m s) !! i = (fun x => set_i_attrs (m ∪ i_attrs x) x) <$> s_insts s !! i.
Proof. apply lookup_alter. Qed.

(** ** Starting the main flow *)

(** The state in which the first tasks are entered. *)
Lemma start_eq E ins s y : s_insts s !! 0%nat = Some y -> i_host y = None ->
  exists y1 s1, start E ins s = (enter_top E 0 (start_entries (d_tasks (i_def y))) ;; ret tt) s1 /\
    s_insts s1 !! 0%nat = Some y1 /\ i_host y1 = None /\ i_handling y1 = i_handling y /\ i_status y1 = FActive /\
    i_def y1 = i_def y /\ i_tasks y1 = i_tasks y /\ i_links y1 = i_links y /\ i_force y1 = i_force y /\ i_rerr y1 = i_rerr y /\
    i_handler y1 = i_handler y /\
    (forall j, j <> 0%nat -> s_insts s1 !! j = s_insts s !! j) /\ s_tis s1 = s_tis s /\ s_nti s1 = s_nti s /\
    s_queue s1 = s_queue s /\ s_wictr s1 = s_wictr s /\ s_sfctr s1 = s_sfctr s /\ s_subs s1 = s_subs s /\
    s_step s1 = s_step s /\ s_lock s1 = s_lock s /\
    exists l, s_log s1 = notice E 0 y1 ++ EvFlowStatus 0 FActive :: l ++ s_log s /\ forall e, e ∈ l -> exists m b, e = EvSet 0 m b.
Proof.
  intros Hy Hh. unfold start, start_instance, bind at 1, get_inst, bind at 1, get. rewrite Hy. unfold ret at 1.
  assert (parent_info E 0 s = (Ok ("", ""), s)) as Hp.
  { unfold parent_info, host_of, bind, get_inst, bind, get. rewrite Hy. unfold ret. by rewrite Hh. }
  unfold bind at 1. rewrite Hp. clear Hp.
  unfold set_values, bind at 1. rewrite (set_attrs_eq _ _ _ _ _ Hy).
  set (m1 := ctx_attrs E _ _ _). set (y1 := set_i_attrs (m1 ∪ i_attrs y) y). set (s1 := p_set (e_track E) 0 m1 s).
  assert (s_insts s1 !! 0%nat = Some y1) as Hy1 by (unfold s1; by rewrite p_set_at, Hy).
  assert (exists y2 s2 l, (match d_md (i_def y) with Some md => set_attrs true 0 (md_in md) | None => ret tt end) s1 = (Ok tt, s2) /\
    s_insts s2 !! 0%nat = Some y2 /\ (exists a, y2 = set_i_attrs a y) /\
    (forall j, j <> 0%nat -> s_insts s2 !! j = s_insts s !! j) /\ s2 = set_s_log (l ++ s_log s) (set_s_insts (s_insts s2) s) /\
    forall e, e ∈ l -> exists m b, e = EvSet 0 m b) as (y2 & s2 & l & Hm & Hy2 & [a Ha] & Ho & Hs2 & Hl).
  { destruct (d_md (i_def y)) as [md|].
    - exists (set_i_attrs (md_in md ∪ (m1 ∪ i_attrs y)) y), (p_set true 0 (md_in md) s1), [EvSet 0 (md_in md) true; EvSet 0 m1 (e_track E)].
      split_and!; [by eapply set_attrs_eq|by rewrite p_set_at, Hy1|by eexists| |by destruct s|].
      + intros j Hj. cbn. rewrite !lookup_alter_ne by done. done.
      + intros e [->|[->|[]%elem_of_nil]%elem_of_cons]%elem_of_cons; eauto.
    - exists y1, s1, [EvSet 0 m1 (e_track E)].
      split_and!; [done|done|by eexists| |by destruct s|].
      + intros j Hj. cbn. rewrite !lookup_alter_ne by done. done.
      + intros e [->|[]%elem_of_nil]%elem_of_cons; eauto. }
  unfold bind at 1. rewrite Hm. clear Hm. unfold bind at 1. rewrite (set_attrs_eq _ _ _ _ _ Hy2).
  set (s3 := p_set true 0 ins s2). assert (s_insts s3 !! 0%nat = Some (set_i_attrs (ins ∪ a) y)) as Hy3.
  { unfold s3. rewrite p_set_at, Hy2, Ha. done. }
  unfold bind at 1. rewrite (set_flow_status_eq _ _ _ _ _ Hy3).
  set (y4 := posted E FActive (set_i_status FActive (set_i_attrs (ins ∪ a) y))).
  set (y3 := set_i_status FActive (set_i_attrs (ins ∪ a) y)) in *.
  exists y4, (p_tell (notice E 0 y3) (p_inst 0 (posted E FActive) (p_fstat 0 FActive s3))).
  destruct (posted_fields E FActive y3) as (F1 & F2 & F3 & F4 & F5 & F6 & F7 & F8 & F9 & F10 & _).
  fold y4 in F1, F2, F3, F4, F5, F6, F7, F8, F9, F10.
  assert (forall A (f : st -> A), (forall x y, f (set_s_log x (set_s_insts y s)) = f s) -> (forall x z, f (set_s_insts x z) = f z) ->
    (forall x z, f (set_s_log x z) = f z) -> f (p_tell (notice E 0 y3) (p_inst 0 (posted E FActive) (p_fstat 0 FActive s3))) = f s) as HF.
  { intros A f H1 H2 H3. unfold p_tell. rewrite H3. unfold p_inst, p_fstat, p_log, s3, p_set, p_inst, p_log. rewrite !H2, !H3, !H2, !H3, !H2. rewrite Hs2. apply H1. }
  split_and!; try (apply HF; done); try done.
  - cbn [s_insts p_tell set_s_log]. rewrite p_inst_at. unfold p_fstat. cbn [s_insts set_s_log p_log]. rewrite p_inst_at, Hy3. done.
  - by rewrite F1.
  - intros j Hj. cbn. rewrite !lookup_alter_ne by done. by apply Ho.
  - exists (EvSet 0 ins true :: l). split; [cbn; unfold y4; rewrite notice_posted, Hs2; done|]. intros e [->|He]%elem_of_cons; eauto.
Qed.

(** The state of a run in which the first tasks are entered. *)
Definition quiet_ev (e : event) : Prop :=
  match e with EvFlowCreated | EvRecStart | EvSet _ _ _ | EvFlowEvent _ _ _ _ _ => True | _ => False end.
Definition first (d : defn) (s : st) : Prop :=
  exists y, s_insts s = {[ 0%nat := y ]} /\ i_host y = None /\ i_handling y = false /\ i_status y = FActive /\
    i_def y = d /\ i_tasks y = ∅ /\ i_links y = ∅ /\ i_force y = false /\ i_rerr y = None /\ i_handler y = false /\
    s_tis s = ∅ /\ s_nti s = 0%nat /\ s_queue s = [] /\ s_wictr s = 0%nat /\ s_sfctr s = 0%nat /\ s_subs s = ∅ /\
    s_step s = 0%nat /\ s_lock s = false /\
    exists l0 l, s_log s = l0 ++ EvFlowStatus 0 FActive :: l /\ forall e, e ∈ l0 ++ l -> quiet_ev e.

Definition before_start (E : env) (ro : run_opts) : M unit :=
  bind (if e_ext E then flow_state ;; log_ev EvRecStart else ret tt) (fun _ =>
    if String.eqb (ro_event ro) "" then ret tt else set_value E 0 "event.id" (VStr (ro_event ro))).
Definition after_start (E : env) (ro : run_opts) : M unit :=
  bind (upd_inst 0 (set_i_handler true)) (fun _ =>
    if e_ext E then if (ro_init ro <=? 0)%Z then record_state E else log_ev EvSkipStep else ret tt).

Definition blank (d : defn) (uri : string) (s : st) : Prop := exists r a,
  s_insts s = {[ 0%nat := mk_inst None false FNotStarted d uri ∅ ∅ false r None a false ]} /\
  s_tis s = ∅ /\ s_nti s = 0%nat /\ s_queue s = [] /\ s_wictr s = 0%nat /\ s_sfctr s = 0%nat /\ s_subs s = ∅ /\
    s_step s = 0%nat /\ s_lock s = false /\ forall e, e ∈ s_log s -> quiet_ev e.
Lemma blank_init d uri : blank d uri (init_st d uri).
Proof. exists None, ∅. split_and!; try done. by intros e ->%elem_of_list_singleton. Qed.
Lemma blank_before E ro d uri s : blank d uri s -> exists s', before_start E ro s = (Ok tt, s') /\ blank d uri s'.
Proof.
  intros H.
  assert (exists s1, (if e_ext E then flow_state ;; log_ev EvRecStart else ret tt) s = (Ok tt, s1) /\ blank d uri s1) as (s1 & H1 & B1).
  { destruct (e_ext E); [|by exists s]. destruct H as (r & a & HI & H).
    assert (s_insts s !! 0%nat = Some (mk_inst None false FNotStarted d uri ∅ ∅ false r None a false)) as Hy.
    { rewrite HI. apply lookup_singleton. }
    unfold flow_state, bind at 1 2. rewrite (get_return_data_eq _ _ _ Hy). unfold ret, log_ev, modify. eexists. split; [done|].
    eexists _, _. split; [cbn; by rewrite HI, alter_singleton|]. destruct H as (?&?&?&?&?&?&?&?&?). split_and!; try done.
    intros e. cbn. intros [->|He]%elem_of_cons; [done|auto]. }
  unfold before_start, bind at 1. rewrite H1. clear H H1 s. destruct (String.eqb _ _); [by exists s1|].
  destruct B1 as (r & a & HI & H).
  assert (s_insts s1 !! 0%nat = Some (mk_inst None false FNotStarted d uri ∅ ∅ false r None a false)) as Hy.
  { rewrite HI. apply lookup_singleton. }
  unfold set_value, set_values. rewrite (set_attrs_eq _ _ _ _ _ Hy). eexists. split; [done|].
  eexists _, _. split; [cbn; by rewrite HI, alter_singleton|]. destruct H as (?&?&?&?&?&?&?&?&?). split_and!; try done.
  intros e. cbn. intros [->|He]%elem_of_cons; [done|auto].
Qed.
Lemma blank_start E ins d uri s : blank d uri s ->
  exists s1, start E ins s = (enter_top E 0 (start_entries (d_tasks d)) ;; ret tt) s1 /\ first d s1.
Proof.
  intros (r & a & HI & T & N & Q & W & F & U & P & L & G).
  assert (s_insts s !! 0%nat = Some (mk_inst None false FNotStarted d uri ∅ ∅ false r None a false)) as Hy.
  { rewrite HI. apply lookup_singleton. }
  destruct (start_eq E ins s _ Hy eq_refl) as (y1 & s1 & Hs & Hy1 & A1 & A2 & A3 & A4 & A5 & A6 & A7 & A8 & A9 & B & C1 & C2 & C3 & C4 & C5 & C6 & C7 & C8 & l & C9 & Cl).
  exists s1. split; [done|]. exists y1. rewrite A1, A2, A3, A4, A5, A6, A7, A8, A9, C1, C2, C3, C4, C5, C6, C7, C8. split_and!; try done.
  - apply map_eq. intros j. destruct (decide (j = 0%nat)) as [->|Hj]; [by rewrite lookup_singleton|].
    rewrite (B j Hj), HI, !lookup_singleton_ne by done. done.
  - exists (notice E 0 y1), (l ++ s_log s). split; [done|]. intros e [He|[He|He]%elem_of_app]%elem_of_app; [| |auto].
    + by destruct (notice_in _ _ _ _ He) as (? & ? & ? & ->).
    + by destruct (Cl e He) as (? & ? & ->).
Qed.
Lemma started_first E d uri ins :
  exists s1, start E ins (init_st d uri) = (enter_top E 0 (start_entries (d_tasks d)) ;; ret tt) s1 /\ first d s1.
Proof. by eapply blank_start, blank_init. Qed.
Lemma prepare_first E ro d uri ins :
  exists s1, run_prepare E ro ins (init_st d uri) = bind (enter_top E 0 (start_entries (d_tasks d)) ;; ret tt) (fun _ => after_start E ro) s1 /\ first d s1.
Proof.
  rewrite run_prepare_parts. change (bind (if e_ext E then flow_state ;; log_ev EvRecStart else ret tt) _) with (before_start E ro).
  destruct (blank_before E ro d uri _ (blank_init d uri)) as (s' & Hb & B). unfold bind at 1. rewrite Hb.
  destruct (blank_start E ins d uri s' B) as (s1 & Hs & F). exists s1. split; [|done]. unfold bind at 1 2. by rewrite Hs.
Qed.
Lemma begin_first E ro d uri ins :
  exists s1, run_begin E ro ins (init_st d uri) =
    bind (enter_top E 0 (start_entries (d_tasks d)) ;; ret tt) (fun _ => after_start E ro ;; run_head E ro) s1 /\ first d s1.
Proof.
  destruct (prepare_first E ro d uri ins) as (s1 & Hs & F). exists s1. split; [|done].
  unfold run_begin, bind at 1. rewrite Hs. unfold bind at 1 3.
  destruct ((enter_top E 0 (start_entries (d_tasks d)) ;; ret tt) s1) as [[]?]; done.
Qed.
Lemma run_flow_first E ro d uri ins :
  exists s1, run_flow E ro d uri ins = bind (enter_top E 0 (start_entries (d_tasks d)) ;; ret tt) (fun _ => after_start E ro ;; run_body E ro) s1 /\ first d s1.
Proof.
  unfold run_flow. rewrite run_action_parts. change (bind (if e_ext E then flow_state ;; log_ev EvRecStart else ret tt) _) with (before_start E ro).
  destruct (blank_before E ro d uri _ (blank_init d uri)) as (s' & Hb & B). unfold bind at 1. rewrite Hb.
  destruct (blank_start E ins d uri s' B) as (s1 & Hs & F). exists s1. split; [|done]. unfold bind at 1 3. by rewrite Hs.
Qed.
