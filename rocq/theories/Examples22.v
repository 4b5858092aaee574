(** Test data and checks for Props_GoesOn.v. Not part of the model; the values have no Go counterpart. *)
From Verif Require Export Only Errors Rounds Examples2 Examples14 Findings3 SpecSub.
Local Open Scope Z_scope.

(** What handler tasks are known when the handler has taken over, nothing else is queued and no subflow was started. *)
Lemma taken_meets E d uri s t x e s1 h :
  running E d uri s -> built d -> NoDup (t_id <$> all_tasks d) -> cov_ok E -> settings_ok E -> e_conc E = false -> d_eh d = Some h ->
  (forall tk, tk ∈ start_tasks (eh_tasks h) -> t_act tk <> None) ->
  evaluates E s t x (inl e) s1 -> ti_inst x = 0%nat -> no_error_link (ti_task x) ->
  (forall y, s_insts s !! 0%nat = Some y -> i_handling y = false) ->
  pending s1 = [] -> (forall i z, s_insts (do_step E s).2 !! i = Some z -> i_host z = None) ->
  exists y, s_insts (do_step E s).2 !! 0%nat = Some y /\ i_handling y = true /\
    (forall w t x, (w, t) ∈ s_queue (do_step E s).2 -> s_tis (do_step E s).2 !! t = Some x -> ti_inst x = 0%nat -> ti_task x ∈ eh_tasks h) /\
    (forall id t x, i_tasks y !! id = Some t -> s_tis (do_step E s).2 !! t = Some x -> ti_task x ∈ eh_tasks h) /\
    (forall i z t x, s_insts (do_step E s).2 !! i = Some z -> i_host z = Some t -> s_tis (do_step E s).2 !! t = Some x -> ti_inst x = 0%nat -> ti_task x ∈ eh_tasks h).
Proof.
  intros R B ND C SO NC Hh Ha Ev Hi Hn Hf Hp Hsub.
  destruct (handler_takes_over E d uri s t x e s1 h R B C SO NC Hh Ha Ev Hi Hn Hf) as (y' & Hy' & _ & Hy1 & Hq & _ & Ht & _).
  rewrite Hp in Hq. cbn [fmap list_fmap app] in Hq. pose proof (running_step _ _ _ _ R) as R'. destruct (running_reach _ _ _ _ R') as [c Rc].
  assert (Hst : forall tk, tk ∈ start_tasks (eh_tasks h) -> tk ∈ eh_tasks h).
  { intros tk Hk. apply elem_of_list_In, filter_In in Hk as [Hk _]. by apply elem_of_list_In. }
  exists y'. split; [done|]. split; [done|]. split_and!.
  - intros w u xu Hin Hxu Hu. assert ((0%nat, t_id (ti_task xu)) ∈ (fun p => (p.1.2, p.2)) <$> pending (do_step E s).2) as Hid.
    { apply elem_of_list_fmap. exists (w, 0%nat, t_id (ti_task xu)). split; [done|]. apply elem_of_list_omap. exists (w, u). split; [done|]. cbn [fst snd]. rewrite Hxu. cbn [fmap option_fmap option_map]. by rewrite Hu. }
    rewrite Hq in Hid. apply elem_of_list_fmap in Hid as (tk & [= Hid] & Hk). apply Hst in Hk.
    destruct (inv_task _ _ _ _ _ Rc u 0%nat (ti_task xu)) as (d' & hst & Hd' & Hin' & _); [by exists xu|].
    destruct (inv_main _ _ _ _ _ Rc) as (y0 & Hy0 & Hd0 & _). destruct Hd' as (y0' & Hy0' & Hd' & _). assert (d' = d) as -> by congruence.
    unfold all_tasks in Hin', ND. rewrite Hh in Hin', ND. apply elem_of_app in Hin' as [Hin'|]; [|done]. rewrite fmap_app in ND. apply NoDup_app in ND as (_ & ND & _).
    destruct (ND (t_id (ti_task xu))); [by apply elem_of_list_fmap_1|]. rewrite Hid. by apply elem_of_list_fmap_1.
  - intros id u xu Hu Hxu. destruct (Ht id u Hu) as (x' & Hx' & _ & _ & Hk). rewrite Hxu in Hx'. injection Hx' as <-. by apply Hst.
  - intros i z u xu Hz Hz1. by rewrite (Hsub _ _ Hz) in Hz1.
Qed.
(** The handler takes over when nothing else is queued and no subflow was started. *)
Lemma taken_over E d uri s t x e s1 h :
  running E d uri s -> built d -> NoDup (t_id <$> all_tasks d) -> cov_ok E -> settings_ok E -> e_conc E = false -> d_eh d = Some h ->
  (forall tk, tk ∈ start_tasks (eh_tasks h) -> t_act tk <> None) ->
  evaluates E s t x (inl e) s1 -> ti_inst x = 0%nat -> no_error_link (ti_task x) ->
  (forall y, s_insts s !! 0%nat = Some y -> i_handling y = false) ->
  pending s1 = [] -> (forall i z, s_insts (do_step E s).2 !! i = Some z -> i_host z = None) ->
  forall n, exists l, evaluations (after E n (do_step E s).2) = evaluations (do_step E s).2 ++ l /\ forall id, (0%nat, id) ∈ l -> id ∈ t_id <$> eh_tasks h.
Proof.
  intros R B ND C SO NC Hh Ha Ev Hi Hn Hf Hp Hsub n. destruct (taken_meets E d uri s t x e s1 h R B ND C SO NC Hh Ha Ev Hi Hn Hf Hp Hsub) as (y & Hy & Hy1 & H1 & H2 & H3).
  eapply handler_only; [by apply running_step|done|done|exact Hy|done..].
Qed.

(** "b" fails when "c" is queued; "c" leads to "d" (test data). *)
Definition goes_on : defn := flow_of "f" [tr "a"; tr "b"; tr "c"; tr "d"; tr "e"] [ldep "a" "b"; ldep "a" "c"; ldep "c" "d"; ldep "d" "e"] (Some ([tr "h"], [])) None.
(** "s" starts a subflow, then "b" fails (test data). *)
Definition left_on : defn := flow_of "f" [tr "a"; tr "s"; tr "b"] [ldep "a" "s"; ldep "a" "b"] (Some ([tr "h"], [])) None.
(** The subflow has three tasks (test data). *)
Definition env_left : env := rec_env RMOff (set_e_def (fun _ _ => DOk (flow_of "sub" [tr "x"; tr "y"; tr "z"] [ldep "x" "y"; ldep "y" "z"] None None))
  (env1 (fun n v => if String.eqb (v_task v) "b" then AEnd (AErr (EAct "failed" "42" VNil false "")) else sub_act ["s"] n v))).
Lemma others_go_on : exists E d uri ins h, built d /\ sync_env false E /\ e_conc E = false /\ d_eh d = Some h /\ t_id <$> eh_tasks h = ["h"] /\
  outcomes 0 "b" (trace (run_flow E ro0 d uri ins).2) <> [None] /\
  evaluations (run_flow E ro0 d uri ins).2 = [(0, "a"); (0, "b"); (0, "c"); (0, "h"); (0, "d"); (0, "e")]%nat /\ main_status (run_flow E ro0 d uri ins).2 = Some FCompleted.
Proof.
  destruct (d_eh goes_on) as [h|] eqn:Hh; [|by vm_compute in Hh].
  exists (env1 (act_fail ["b"])), goes_on, "u", ∅, h. split; [apply flow_of_built; ev|]. split; [intros ??; apply act_fail_sync|]. split; [done|]. split; [done|].
  vm_compute in Hh. injection Hh as <-. split; [done|]. split; [by vm_compute|]. split_and!; ev.
Qed.
Lemma subflow_left : exists E sub d uri ins h, built sub /\ built d /\ SpecSub.recordable E /\ e_conc E = false /\ (forall n u, e_def E n u = DOk sub) /\
  d_eh d = Some h /\ t_id <$> eh_tasks h = ["h"] /\
  let s := (run_flow E ro0 d uri ins).2 in
  evaluations s = [(0, "a"); (0, "s"); (0, "b"); (1, "x"); (0, "h")]%nat /\ main_status s = Some FCompleted /\ delivered s = [(None, None)] /\
  (fun p => (p.1.2, p.2)) <$> pending s = [(1%nat, "y")] /\ i_status <$> s_insts s !! 1%nat = Some FActive.
Proof.
  destruct (d_eh left_on) as [h|] eqn:Hh; [|by vm_compute in Hh].
  eexists env_left, _, left_on, "u", ∅, h. split; [|split; [apply flow_of_built; ev|]]; [|split; [exists RMOff; split; [done|by right]|]; split; [done|]; split; [done|]]; [apply flow_of_built; ev|].
  split; [done|]. vm_compute in Hh. injection Hh as <-. split; [done|]. cbv zeta. split_and!; ev.
Qed.

(** "b" fails when nothing is queued; the handler has two tasks (test data). *)
Definition only_flow : defn := flow_of "f" [tr "a"; tr "b"] [ldep "a" "b"] (Some ([tr "h1"; tr "h3"], [ldep "h1" "h3"])) None.
(** The error (test data). *)
Definition only_err : err := EAct "failed" "42" VNil false "b".
Lemma only_holds : let E := env1 (act_fail ["b"]) in let s := after E 1 (started E only_flow "u" ∅) in
  running E only_flow "u" s /\ built only_flow /\ NoDup (t_id <$> all_tasks only_flow) /\ cov_ok E /\ settings_ok E /\ e_conc E = false /\
  (exists h, d_eh only_flow = Some h /\ t_id <$> eh_tasks h = ["h1"; "h3"] /\ forall tk, tk ∈ start_tasks (eh_tasks h) -> t_act tk <> None) /\
  (exists t x s1, evaluates E s t x (inl only_err) s1 /\ ti_inst x = 0%nat /\ no_error_link (ti_task x) /\ pending s1 = []) /\
  (forall y, s_insts s !! 0%nat = Some y -> i_handling y = false) /\
  (forall i z, s_insts (do_step E s).2 !! i = Some z -> i_host z = None) /\
  evaluations (do_step E s).2 = [(0, "a"); (0, "b")]%nat /\ evaluations (after E 5 (do_step E s).2) = [(0, "a"); (0, "b"); (0, "h1"); (0, "h3")]%nat.
Proof.
  cbv zeta. set (E := env1 (act_fail ["b"])). set (s := after _ _ _).
  split; [apply started_running|]. split; [by apply flow_of_built; ev|]. split; [apply (bool_decide_unpack _); ev|]. split; [apply env1_cov|]. split; [apply env1_settings|]. split; [done|].
  split; [|split; [|split; [|split; [|split]]]].
  - destruct (some_check (fun h => t_id <$> eh_tasks h = ["h1"; "h3"] /\
      Forall (fun tk => is_Some (t_act tk)) (start_tasks (eh_tasks h))) (d_eh only_flow)) as (h & Hh & H1 & H2); [ev|].
    exists h. split; [done|]. split; [done|]. intros tk Htk Hn. rewrite Forall_forall in H2. apply H2 in Htk as [? Htk]. congruence.
  - destruct (eval_check E s (fun t x r s1 => bool_decide (r = inl only_err /\ ti_inst x = 0%nat /\
      Forall (fun l => l_type l <> LtError) (t_to (ti_task x)) /\ pending s1 = []))) as (t & x & r & s1 & Ev & H); [ev|].
    apply bool_decide_eq_true in H as (-> & H1 & H2 & H3). exists t, x, s1. split; [done|]. split; [done|]. split; [by apply no_error_check|done].
  - destruct (some_check (fun y => i_handling y = false) (s_insts s !! 0%nat)) as (y & Hy & H); [ev|]. intros y'. rewrite Hy. by intros [= <-].
  - assert (forallb (fun p => bool_decide (i_host p.2 = None)) (map_to_list (s_insts (do_step E s).2)) = true) as H by ev.
    intros i z Hz. rewrite forallb_forall in H. specialize (H (i, z)). apply bool_decide_eq_true in H; [done|]. by apply elem_of_list_In, elem_of_map_to_list.
  - ev.
  - ev.
Qed.
Lemma only_meets : exists E d uri s y h, running E d uri s /\ built d /\ d_eh d = Some h /\ s_insts s !! 0%nat = Some y /\ i_handling y = true /\
  (forall w t x, (w, t) ∈ s_queue s -> s_tis s !! t = Some x -> ti_inst x = 0%nat -> ti_task x ∈ eh_tasks h) /\
  (forall id t x, i_tasks y !! id = Some t -> s_tis s !! t = Some x -> ti_task x ∈ eh_tasks h) /\
  (forall i z t x, s_insts s !! i = Some z -> i_host z = Some t -> s_tis s !! t = Some x -> ti_inst x = 0%nat -> ti_task x ∈ eh_tasks h) /\
  evaluations s = [(0, "a"); (0, "b")]%nat /\ evaluations (after E 5 s) = [(0, "a"); (0, "b"); (0, "h1"); (0, "h3")]%nat.
Proof.
  destruct only_holds as (R & B & ND & C & SO & NC & (h & Hh & _ & Ha) & (t & x & s1 & Ev & Hi & Hn & Hp) & Hf & Hs & H1 & H2).
  destruct (taken_meets _ _ _ _ _ _ _ _ _ R B ND C SO NC Hh Ha Ev Hi Hn Hf Hp Hs) as (y & Hy & Hy1 & Q1 & Q2 & Q3).
  eexists _, _, _, _, y, h. split; [apply running_step, R|]. split; [exact B|]. split; [exact Hh|]. split; [exact Hy|]. split; [done|]. split; [exact Q1|]. split; [exact Q2|].
  split; [exact Q3|]. split; [exact H1|exact H2].
Qed.
