(** Concrete flows for the examples beside the theorems. *)
From Verif Require Export Findings.
From Verif Require Import Life.
Local Open Scope Z_scope.

(** A fork with one branch taken and one not, joined again. *)
Definition diamond : defn :=
  flow_of "f" [tr "a"; tr "b"; tr "c"; tr "d"]
    [ldep "a" "b"; lexpr "a" "c" "false"; ldep "b" "d"; ldep "c" "d"] None None.
(** A start task before a cycle with a task behind it. *)
Definition cyclic : defn :=
  flow_of "f" [tr "a"; tr "b"; tr "c"; tr "e"]
    [ldep "a" "b"; ldep "b" "c"; ldep "c" "b"; ldep "c" "e"] None None.
(** Two start tasks, each with a successor. *)
Definition two_lines : defn :=
  flow_of "f" [tr "a"; tr "b"; tr "c"; tr "d"] [ldep "a" "c"; ldep "b" "d"] None None.
(** A task that starts a subflow, and its successor. *)
Definition caller : defn := flow_of "f" [tr "a"; tr "b"] [ldep "a" "b"] None None.

Lemma env1_built a : built_env (env1 a).
Proof. done. Qed.
Lemma env_sub_built : built_env env_sub.
Proof. intros n uri d [= <-]. apply flow_of_built; ev. Qed.
Lemma diamond_built : built diamond.
Proof. apply flow_of_built; ev. Qed.
Lemma cyclic_built : built cyclic.
Proof. apply flow_of_built; ev. Qed.
Lemma caller_built : built caller.
Proof. apply flow_of_built; ev. Qed.
Lemma visited_after E d uri ins n : visited E d uri (after E n (started E d uri ins)).
Proof. left. apply started_running. Qed.

(** Task "b" of [cyclic] lies on the cycle and "e" behind it. *)
Lemma cyclic_behind tk : tk ∈ all_tasks cyclic -> t_id tk <> "a" -> behind_cycle cyclic tk.
Proof.
  intros Htk Hne. assert (Hl : all_links cyclic =
    [mk_link 0 LtDependency "a" "b" "" "" None false; mk_link 1 LtDependency "b" "c" "" "" None false;
     mk_link 2 LtDependency "c" "b" "" "" None false; mk_link 3 LtDependency "c" "e" "" "" None false]) by ev.
  assert (He : forall l, l ∈ all_links cyclic -> edge cyclic (false, l_from l) (false, l_to l) \/ l_eh l = true).
  { intros l Hin. assert (Hin' := Hin). rewrite Hl in Hin. rewrite !elem_of_cons in Hin.
    destruct Hin as [->|[->|[->|[->|Hin]]]]; [left; eexists; split; [exact Hin'|done]..|].
    by apply elem_of_nil in Hin. }
  assert (edge cyclic (false, "b") (false, "c")) as Ebc.
  { destruct (He (mk_link 1 LtDependency "b" "c" "" "" None false)) as [?|?]; [rewrite Hl; set_solver|done|done]. }
  assert (edge cyclic (false, "c") (false, "b")) as Ecb.
  { destruct (He (mk_link 2 LtDependency "c" "b" "" "" None false)) as [?|?]; [rewrite Hl; set_solver|done|done]. }
  assert (edge cyclic (false, "c") (false, "e")) as Ece.
  { destruct (He (mk_link 3 LtDependency "c" "e" "" "" None false)) as [?|?]; [rewrite Hl; set_solver|done|done]. }
  assert (Ht : (fun tk => (t_eh tk, t_id tk)) <$> all_tasks cyclic =
    [(false, "a"); (false, "b"); (false, "c"); (false, "e")]) by ev.
  assert ((t_eh tk, t_id tk) ∈ (fun tk => (t_eh tk, t_id tk)) <$> all_tasks cyclic) as Hin
    by (by apply (elem_of_list_fmap_1 (fun tk => (t_eh tk, t_id tk)))).
  rewrite Ht in Hin. exists (false, "b"). split.
  - eapply tc_l; [exact Ebc|]. by apply tc_once.
  - rewrite !elem_of_cons in Hin. destruct Hin as [[= _ Ha]|[E|[E|[E|Hin]]]]; [done|rewrite E..|by apply elem_of_nil in Hin].
    + done.
    + by apply rtc_once.
    + eapply rtc_l; [exact Ebc|]. by apply rtc_once.
Qed.

(** An interceptor that skips one task and mocks another. *)
Definition skip_icpt : icpt := mk_icpt
  {[ "b" := mk_ticpt true ∅ ∅ [] false 0; "f-c" := mk_ticpt false ∅ {[ "o" := VStr "mocked" ]} [] true 0 ]} true false.
Definition env_icpt : env := set_e_icpt (Some skip_icpt) (env1 act_ok).

(** A description with every kind of link, a repeated task, an unknown link type and an error
    handler. *)
Definition rep1 : def_rep := mk_def_rep false "f" "" None
  [tr "a"; trs "b" "iterator" {["iterate" := VInt 2]}; tr "a"; tr "c"]
  [lexpr "a" "b" "true"; mk_link_rep "4" "" "c" "a" "" ""; mk_link_rep "strange" "" "c" "b" "" ""]
  (Some ([tr "h"; tr "k"], [ldep "h" "k"])).

(** Deciding [settled] by computation. *)
Definition settled_b (s : st) (t : nat) (z : Z) : bool :=
  match s_tis s !! t with Some x => bool_decide (ti_status x = z) | None => false end &&
  forallb (fun p => forallb (fun q => negb (Nat.eqb q.2 t)) (map_to_list (i_tasks p.2))) (map_to_list (s_insts s)).
Lemma settled_check s t z : settled_b s t z = true -> settled s t z.
Proof.
  unfold settled_b. intros [H1 H2]%andb_true_iff. split.
  - destruct (s_tis s !! t) as [x|]; [|done]. apply bool_decide_eq_true in H1. eauto.
  - intros i y id Hy Ht. rewrite forallb_forall in H2.
    assert ((i, y) ∈ map_to_list (s_insts s)) as Hin by by apply elem_of_map_to_list.
    apply elem_of_list_In, H2 in Hin. simpl in Hin. rewrite forallb_forall in Hin.
    assert ((id, t) ∈ map_to_list (i_tasks y)) as Hin2 by by apply elem_of_map_to_list.
    apply elem_of_list_In, Hin in Hin2. simpl in Hin2. by rewrite Nat.eqb_refl in Hin2.
Qed.

(** Finding a task event by computation. *)
Definition upd_b (s : st) (i : nat) (id : string) (z : Z) : bool :=
  existsb (fun e => match e with EvTaskUpd i' id' z' => Nat.eqb i i' && String.eqb id id' && Z.eqb z z' | _ => false end)
    (trace s).
Lemma upd_check s i id z : upd_b s i id z = true -> EvTaskUpd i id z ∈ trace s.
Proof.
  unfold upd_b. intros (e & Hin & He)%existsb_exists. apply elem_of_list_In.
  destruct e; try done. apply andb_true_iff in He as [[H1 H2]%andb_true_iff H3].
  apply Nat.eqb_eq in H1. apply String.eqb_eq in H2. apply Z.eqb_eq in H3. by subst.
Qed.
