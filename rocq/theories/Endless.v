(** A flow in which skipping tasks never ends. No Go counterpart (cases for the theorems). *)
From Verif Require Export Bound Examples5 Examples7.
Local Open Scope Z_scope.

(** Main section and error handler use the ids "a" and "b" both; the link from "x" to "z" cannot be evaluated. *)
Definition shared : defn := flow_of "s" [tr "w"; tr "x"; tr "a"; tr "b"; tr "z"]
  [lexpr "w" "a" "false"; lexpr "x" "a" "false"; lexpr "x" "z" "err"; ldep "a" "b"]
  (Some ([tr "r"; tr "b"; tr "a"], [lexpr "r" "b" "false"; ldep "b" "a"])) None.
(** The flow that starts it as a subflow. *)
Definition sharing : defn := flow_of "f" [tr "h"] [] None None.
Definition env_shared : env := set_e_def (fun _ _ => DOk shared)
  (env0 (fun n v => if bool_decide (v_task v = "h") then AStart "s" ∅ (AEnd ADone) (AEnd AWait) else act_ok n v)).


Definition pick (o : option task) : task := match o with Some k => k | None => mk_task "" "" TBasic None false None None [] [] false end.
(** The tasks "a" and "b" of either section. *)
Definition a_main : task := Eval vm_compute in pick (get_task shared "a").
Definition b_main : task := Eval vm_compute in pick (get_task shared "b").
Definition a_eh : task := Eval vm_compute in pick (get_eh_task shared "a").
Definition b_eh : task := Eval vm_compute in pick (get_eh_task shared "b").

(** The task is in the table as task instance [t] of [k], and its links into it are not followed. *)
Definition held (s : st) (y : inst) (t : nat) (k : task) : Prop :=
  i_tasks y !! t_id k = Some t /\ (exists x, s_tis s !! t = Some x /\ ti_inst x = 1%nat /\ ti_task x = k) /\
  forall l, l ∈ t_from k -> i_links y !! l_id l = Some LFalse.
Definition knot (ta tb : nat) (s : st) : Prop := exists y, s_insts s !! 1%nat = Some y /\ i_def y = shared /\ i_force y = false /\
  held s y ta a_main /\ held s y tb b_eh.

Lemma knot_ti ta tb s t f l : (forall x, ti_inst (f x) = ti_inst x) -> (forall x, ti_task (f x) = ti_task x) -> knot ta tb s ->
  knot ta tb (set_s_log l (set_s_tis (alter f t (s_tis s)) s)).
Proof.
  intros F1 F2 (y & Hy & Hd & Hf & HA & HB).
  assert (G : forall u k, held s y u k -> held (set_s_log l (set_s_tis (alter f t (s_tis s)) s)) y u k).
  { intros u k (H1 & (x & Hx & H2 & H3) & H4). split; [done|split; [|done]]. cbn. destruct (decide (t = u)) as [->|Hn].
    - rewrite lookup_alter, Hx. eexists. split; [done|]. cbn. by rewrite F1, F2.
    - rewrite lookup_alter_ne by done. by exists x. }
  exists y. split_and!; auto.
Qed.
Lemma knot_link ta tb s l n z : (forall k, k ∈ t_from a_main ++ t_from b_eh -> l_id k <> n) -> knot ta tb s ->
  knot ta tb (set_s_log l (set_s_insts (alter (fun x => set_i_links (<[n := z]> (i_links x)) x) 1%nat (s_insts s)) s)).
Proof.
  intros Hn (y & Hy & Hd & Hf & (A1 & A2 & A3) & (B1 & B2 & B3)). eexists. split; [cbn; by rewrite lookup_alter, Hy|]. split; [done|]. split; [done|].
  split; (split; [done|split; [done|]]); intros k Hk; cbn; rewrite lookup_insert_ne; auto; intros E0; (eapply Hn; [|by rewrite E0]); apply elem_of_app; auto.
Qed.

Lemma knot_enter ta tb t k x y s : knot ta tb s -> s_tis s !! t = Some x -> s_insts s !! 1%nat = Some y -> held s y t k -> t_from k <> [] ->
  exists s1, enter t s = (Ok ERSkip, s1) /\ knot ta tb s1 /\ exists x1, s_tis s1 !! t = Some x1 /\ ti_inst x1 = 1%nat /\ ti_task x1 = k /\ ti_status x1 = TSkipped.
Proof.
  intros K Hx Hy (H1 & (x' & Hx' & H2 & H3) & H4) Hne. rewrite Hx in Hx'. injection Hx' as <-.
  unfold enter, set_task_status. cbn [bind get_ti]. unfold bind, get_ti, bind, get. rewrite Hx. cbn.
  set (s1 := set_s_log _ _). assert (K1 : knot ta tb s1) by (by apply knot_ti).
  assert (Hx1 : s_tis s1 !! t = Some (set_ti_status TEntered x)) by (cbn; by rewrite lookup_alter, Hx).
  assert (Hy1 : s_insts s1 !! 1%nat = Some y) by done. clearbody s1.
  unfold from_links, bind, get_ti, bind, get. rewrite Hx1. cbn. rewrite H2, H3.
  assert (L : forall ls, (forall l, l ∈ ls -> i_links y !! l_id l = Some LFalse) -> iterM (find_or_create_link 1) ls s1 = (Ok tt, s1)).
  { induction ls as [|l ls IH]; intros Hl; [done|]. cbn. unfold bind at 1. unfold find_or_create_link, bind, get_inst, bind, get. rewrite Hy1. cbn.
    rewrite (Hl l) by left. cbn. apply IH. intros l' Hl'. apply Hl. by right. }
  rewrite L by done. cbn. rewrite Hx1. cbn. unfold get_inst, bind, get. rewrite H2, Hy1. cbn.
  assert (S : forall ls, (forall l, l ∈ ls -> i_links y !! l_id l = Some LFalse) -> scan_links (link_status y) ls true = Some true).
  { induction ls as [|l ls IH]; intros Hl; [done|]. cbn [scan_links]. assert (link_status y l = LFalse) as -> by (unfold link_status; by rewrite (Hl l) by left). cbn. apply IH. intros l' Hl'. apply Hl. by right. }
  replace (match t_from k with [] => false | _ :: _ => true end) with true by (by destruct (t_from k)). rewrite S by done.
  rewrite Hx1. cbn. eexists. split; [done|]. split; [by apply knot_ti|]. eexists. split; [cbn; by rewrite lookup_alter, Hx1|]. done.
Qed.
Lemma knot_skip ta tb t x k l e s : knot ta tb s -> s_tis s !! t = Some x -> ti_inst x = 1%nat -> ti_task x = k -> t_to k = [l] -> link_target shared l = Some e ->
  (forall k, k ∈ t_from a_main ++ t_from b_eh -> l_id k <> l_id l) ->
  exists s1, beh_skip env_shared t s = (Ok (false, [(e, 4)], false), s1) /\ knot ta tb s1.
Proof.
  intros K Hx Hi Hk Hl He Hn. unfold beh_skip. cbv zeta. unfold to_links. unfold bind, get_ti, bind, get. rewrite Hx. cbn. rewrite Hk, Hl, Hi.
  assert (F : exists s1, find_or_create_link 1 l s = (Ok tt, s1) /\ knot ta tb s1 /\ s_tis s1 = s_tis s).
  { destruct K as (y & Hy & K). unfold find_or_create_link, bind, get_inst, bind, get. rewrite Hy. cbn. destruct (i_links y !! l_id l); cbn.
    - exists s. split; [done|]. split; [by exists y|done].
    - eexists. split; [done|]. split; [apply knot_link; [done|by exists y]|done]. }
  destruct F as (s1 & F & K1 & T1). cbn. unfold bind. rewrite F. cbn.
  unfold set_task_status, bind, get_ti, bind, get. rewrite T1, Hx. cbn. set (s2 := set_s_log _ _). assert (K2 : knot ta tb s2) by (by apply knot_ti).
  assert (Hx2 : s_tis s2 !! t = Some (set_ti_status TSkipped x)) by (cbn; by rewrite lookup_alter, T1, Hx).
  rewrite lookup_alter, T1, Hx. clearbody s2. cbn. rewrite Hi. unfold set_link_status, bind, get_inst, bind, get. pose proof K2 as (y2 & Hy2 & Hd2 & _). rewrite Hy2. cbn.
  set (s3 := set_s_log _ _). assert (K3 : knot ta tb s3) by (by apply knot_link).
  clearbody s3. destruct (bool_decide (LSkipped = LTrue)); unfold ret, log_ev, modify; set (s4 := set_s_log _ _);
    (assert (K4 : knot ta tb s4) by exact K3); clearbody s4; pose proof K4 as (y4 & Hy4 & Hd4 & _); unfold entries_of, bind, get_inst, bind, get;
    rewrite Hy4; cbn; rewrite Hd4, He; cbn; (eexists; split; [done|]); done.
Qed.

Lemma bind_run {A B} (m : M A) (f : A -> M B) s a s1 : m s = (Ok a, s1) -> bind m f s = f a s1.
Proof. intros H. unfold bind. by rewrite H. Qed.
(** Each of the two tasks is skipped again because the other one is. *)
Lemma knot_level ta tb n e t k l e' s0 s y : find_or_create_task 1 e s0 = (Ok t, s) -> knot ta tb s -> s_insts s !! 1%nat = Some y -> held s y t k -> t_from k <> [] ->
  t_to k = [l] -> link_target shared l = Some e' -> (forall k, k ∈ t_from a_main ++ t_from b_eh -> l_id k <> l_id l) ->
  (match n with O => True | S n' => forall s', knot ta tb s' -> (enter_tasks env_shared n' 1 [(e', 4)] s').1 = Fuel end) ->
  forall z r, (enter_tasks env_shared n 1 ((e, z) :: r) s0).1 = Fuel.
Proof.
  intros F K Hy H Hne Hl He Hn IH z r. pose proof H as (H1 & (x & Hx & H2 & H3) & H4).
  destruct (knot_enter _ _ _ _ _ _ _ K Hx Hy H Hne) as (s1 & Hen & K1 & x1 & Hx1 & Hi1 & Ht1 & Hs1).
  destruct (knot_skip _ _ _ _ _ _ _ _ K1 Hx1 Hi1 Ht1 Hl He Hn) as (s2 & Hsk & K2). pose proof K2 as (y2 & Hy2 & _ & Hf2 & _).
  assert (G : get_ti t s = (Ok x, s)) by (unfold get_ti, bind, get; by rewrite Hx).
  assert (G1 : get_ti t s1 = (Ok x1, s1)) by (unfold get_ti, bind, get; by rewrite Hx1).
  assert (G2 : get_inst 1 s2 = (Ok y2, s2)) by (unfold get_inst, bind, get; by rewrite Hy2).
  destruct n as [|n]; cbn [enter_tasks]; change (e_conc env_shared) with false; unfold with_lock; change (e_conc env_shared) with false; cbv iota; cbn [enter_list];
    rewrite (bind_run _ _ _ _ _ F), (bind_run _ _ _ _ _ G); change (e_conc env_shared && ti_sched x) with false; cbv iota; rewrite (bind_run _ _ _ _ _ Hen); cbv iota; [done|].
  unfold bind at 1. match goal with |- (let (_, _) := ?m in _).1 = _ => cut (m.1 = Fuel); [destruct m as [o s']; cbn; by intros ->|] end.
  unfold handle_task_done. rewrite (bind_run _ _ _ _ _ G1). cbv zeta. rewrite bool_decide_eq_true_2 by done.
  erewrite bind_run; [|erewrite bind_run; [|exact Hsk]; reflexivity]. cbn [fst snd]. cbv iota. erewrite bind_run; [|reflexivity]. rewrite Hi1.
  rewrite (bind_run _ _ _ _ _ G2), Hf2. cbn [orb]. specialize (IH s2 K2). unfold bind at 1 2. destruct (enter_tasks env_shared n 1 _ s2) as [o s3]. cbn in IH. by rewrite IH.
Qed.
Lemma knot_endless ta tb n s : knot ta tb s -> (enter_tasks env_shared n 1 [(a_eh, 4)] s).1 = Fuel /\ (enter_tasks env_shared n 1 [(b_main, 4)] s).1 = Fuel.
Proof.
  revert s. induction n as [n IH] using lt_wf_ind. intros s K. pose proof K as (y & Hy & _ & _ & HA & HB). split.
  - eapply (knot_level ta tb n a_eh ta a_main _ b_main s s y); try done.
    + unfold find_or_create_task, bind, get_inst, bind, get. rewrite Hy. cbn. destruct HA as [HA _]. cbn in HA. by rewrite HA.
    + intros k Hk. cbn in Hk. rewrite !elem_of_cons, elem_of_nil in Hk. cbn. naive_solver.
    + destruct n; [done|]. intros s' K'. by apply IH; [lia|].
  - eapply (knot_level ta tb n b_main tb b_eh _ a_eh s s y); try done.
    + unfold find_or_create_task, bind, get_inst, bind, get. rewrite Hy. cbn. destruct HB as [HB _]. cbn in HB. by rewrite HB.
    + intros k Hk. cbn in Hk. rewrite !elem_of_cons, elem_of_nil in Hk. cbn. naive_solver.
    + destruct n; [done|]. intros s' K'. by apply IH; [lia|].
Qed.

(** The state before the step that never ends, after evaluating the task "r" in it, after its links are set, and with the task "b". *)
Definition end_s : st := after env_shared 3 (started env_shared sharing "u" ∅).
Definition end_1 : nat * tinst * (err + eval_result) * st := match next_eval env_shared end_s with Some p => p | None => (0%nat, mk_tinst 0 (pick None) 0 ∅ ∅ ∅ ∅ None false, inl (EOther ""), end_s) end.
Definition end_p (s : st) : out (err + bool * list entry) * st := bind (beh_done env_shared 4) (fun d => bind (add_activity_coverage env_shared 4) (fun _ => ret d)) s.
Definition end_q (s : st) : out nat * st := find_or_create_task 1 b_eh (end_p s).2.
(** What matters of that state. *)
Definition end_at (s : st) : Prop :=
  match s_tis s !! 4%nat with Some x => ti_inst x = 1%nat /\ ti_status x <> TSkipped | None => False end /\
  match (end_p s).1 with Ok (inr (nt, es)) => nt = false /\ exists z, es = [(b_eh, z)] | _ => False end /\
  match s_insts (end_p s).2 !! 1%nat with Some y => i_force y = false | None => False end /\
  (end_q s).1 = Ok 5%nat /\
  match s_insts (end_q s).2 !! 1%nat with
  | Some y => i_def y = shared /\ i_force y = false /\ i_tasks y !! "a" = Some 3%nat /\ i_tasks y !! "b" = Some 5%nat /\
      i_links y !! 0%nat = Some LFalse /\ i_links y !! 1%nat = Some LFalse /\ i_links y !! 4%nat = Some LFalse
  | None => False end /\
  match s_tis (end_q s).2 !! 3%nat, s_tis (end_q s).2 !! 5%nat with
  | Some x, Some x' => ti_inst x = 1%nat /\ ti_task x = a_main /\ ti_inst x' = 1%nat /\ ti_task x' = b_eh
  | _, _ => False end.
Lemma end_reached : end_at end_1.2.
Proof.
  split; [vm_compute; split; [reflexivity|discriminate]|]. split; [vm_compute; split; [reflexivity|eexists; reflexivity]|].
  split; [vm_compute; reflexivity|]. split; [vm_compute; reflexivity|]. split; vm_compute; split_and!; reflexivity.
Qed.
Lemma knot_of s : match s_insts s !! 1%nat with
  | Some y => i_def y = shared /\ i_force y = false /\ i_tasks y !! "a" = Some 3%nat /\ i_tasks y !! "b" = Some 5%nat /\
      i_links y !! 0%nat = Some LFalse /\ i_links y !! 1%nat = Some LFalse /\ i_links y !! 4%nat = Some LFalse
  | None => False end -> match s_tis s !! 3%nat, s_tis s !! 5%nat with
  | Some x, Some x' => ti_inst x = 1%nat /\ ti_task x = a_main /\ ti_inst x' = 1%nat /\ ti_task x' = b_eh
  | _, _ => False end -> knot 3 5 s.
Proof.
  intros H H'. destruct (s_insts s !! 1%nat) as [y|] eqn:Hy; [|by destruct H].
  destruct (s_tis s !! 3%nat) as [x|] eqn:Hx; [|by destruct H']. destruct (s_tis s !! 5%nat) as [x'|] eqn:Hx'; [|by destruct H'].
  destruct H as (H1 & H2 & H3 & H4 & H5 & H6 & H7). destruct H' as (T1 & T2 & T3 & T4). exists y. split; [exact Hy|]. split; [exact H1|]. split; [exact H2|]. split.
  - split; [exact H3|]. split; [by exists x|]. intros l Hl. cbn in Hl. rewrite !elem_of_cons, elem_of_nil in Hl. by destruct Hl as [->|[->|[]]].
  - split; [exact H4|]. split; [by exists x'|]. intros l Hl. cbn in Hl. rewrite !elem_of_cons, elem_of_nil in Hl. by destruct Hl as [->|[]].
Qed.
Lemma end_never s n : end_at s -> (handle_task_done env_shared (enter_tasks env_shared n) 4 s).1 = Fuel.
Proof.
  intros (Hx & F & Fo & Ff & K1 & K2). pose proof (knot_of _ K1 K2) as K. clear K1 K2. destruct (s_tis s !! 4%nat) as [x|] eqn:Hx4; [|by destruct Hx]. destruct Hx as [Hi Hs].
  assert (G : get_ti 4 s = (Ok x, s)) by (unfold get_ti, bind, get; by rewrite Hx4).
  unfold handle_task_done. rewrite (bind_run _ _ _ _ _ G). cbv zeta. rewrite bool_decide_eq_false_2 by done.
  unfold end_q in K, Ff. unfold end_p in *. set (m := bind (beh_done env_shared 4) _) in *. clearbody m.
  destruct (m s) as [[[|[nt es]]| | |] s2] eqn:Hm; try (by destruct F). cbn [fst snd] in *. destruct F as [-> (z & ->)].
  rewrite (bind_run _ _ _ _ _ Hm). cbv iota. erewrite bind_run; [|reflexivity]. rewrite Hi.
  destruct (s_insts s2 !! 1%nat) as [y|] eqn:Hy; [|by destruct Fo]. assert (G2 : get_inst 1 s2 = (Ok y, s2)) by (unfold get_inst, bind, get; by rewrite Hy).
  rewrite (bind_run _ _ _ _ _ G2), Fo. cbn [orb].
  cut ((enter_tasks env_shared n 1 [(b_eh, z)] s2).1 = Fuel).
  { unfold bind at 1 2. destruct (enter_tasks env_shared n 1 _ s2) as [o s3]. cbn. by intros ->. }
  destruct (find_or_create_task 1 b_eh s2) as [o s3] eqn:Hf. cbn [fst snd] in *. subst o. pose proof K as (y3 & Hy3 & _ & _ & HA & HB).
  eapply (knot_level 3 5 n b_eh 5 b_eh _ a_eh s2 s3 y3); [done..|reflexivity|reflexivity| |].
  - intros k Hk. cbn in Hk. rewrite !elem_of_cons, elem_of_nil in Hk. cbn. naive_solver.
  - destruct n; [done|]. intros s' K'. by apply (knot_endless 3 5).
Qed.
Lemma next_is E s p : next_eval E s = Some p -> evaluates E s p.1.1.1 p.1.1.2 p.1.2 p.2.
Proof.
  intros Hn. destruct (eval_check E s (fun t x r s1 => true)) as (t & x & r & s1 & Ev & _); [rewrite Hn; by destruct p as [[[? ?] ?] ?]|].
  pose proof Ev as (Hm & Hx & Hs1 & Hs2 & w & q & Hq & Hr). unfold next_eval in Hn. rewrite Hm, Hq, Hx, !bool_decide_eq_true_2 in Hn by done. cbn [andb] in Hn.
  rewrite Hr in Hn. injection Hn as <-. exact Ev.
Qed.
Lemma endless : exists E d uri s t x s1, built d /\ built_env E /\ e_conc E = false /\ running E d uri s /\ evaluates E s t x (inr EvalDone) s1 /\
  forall n, (handle_task_done E (enter_tasks E n) t s1).1 = Fuel.
Proof.
  assert (H0 : match next_eval env_shared end_s with Some _ => True | None => False end) by (vm_compute; exact Logic.I).
  assert (H1 : end_1.1.1.1 = 4%nat) by (vm_compute; reflexivity). assert (H2 : end_1.1.2 = inr EvalDone) by (vm_compute; reflexivity).
  pose proof end_reached as H3. unfold end_1 in H1, H2, H3. assert (R : running env_shared sharing "u" end_s) by (apply after_running; constructor).
  set (s := end_s) in *. clearbody s. destruct (next_eval env_shared s) as [p|] eqn:Hn; [|by destruct H0].
  exists env_shared, sharing, "u", s, 4%nat, p.1.1.2, p.2. split; [apply flow_of_built; ev|].
  split; [intros n u d' [= <-]; apply flow_of_built; ev|]. split; [done|]. split; [exact R|]. split.
  - rewrite <- H1, <- H2. by apply next_is.
  - intros n. by apply end_never.
Qed.
