(** Cases for the theorems about flow events. *)
From Verif Require Export Told Examples5 Examples7.
Local Open Scope Z_scope.

Definition events_of (s : st) : list (nat * Z * vmap * vmap * option err) :=
  omap (fun e => match e with EvFlowEvent i z ins outs r => Some (i, z, ins, outs, r) | _ => None end) (trace s).
Lemma events_in s i z ins outs r : EvFlowEvent i z ins outs r ∈ trace s <-> (i, z, ins, outs, r) ∈ events_of s.
Proof.
  unfold events_of. rewrite elem_of_list_omap. split.
  - intros H. by exists (EvFlowEvent i z ins outs r).
  - intros (e & He & H). destruct e; try done. by injection H as -> -> -> -> ->.
Qed.

(** What is checked of an event: flow, status, one input, one output, whether there is an error. *)
Definition brief (k o : string) (p : nat * Z * vmap * vmap * option err) : nat * Z * option val * option val * bool :=
  let '(i, z, ins, outs, r) := p in (i, z, ins !! k, outs !! o, match r with Some _ => true | None => false end).

(** The failure of a flow is reported without an error. *)
Definition env_told : env := set_e_listener true (env1 (act_fail ["b"])).
Lemma failure_without_error :
  exists E ro d uri ins e, built d /\ sync_env false E /\ e_listener E = true /\
    let s := (run_flow E ro d uri ins).2 in
    delivered s = [(None, Some e)] /\ statuses 0 s = [FActive; FFailed] /\
    forall ins outs r, EvFlowEvent 0 FFailed ins outs r ∈ trace s -> r = None.
Proof.
  exists env_told, ro0, two_lines, "u", ∅, (EAct "failed" "42" VNil false "b"). split; [apply flow_of_built; ev|].
  split; [intros n v; cbn; unfold act_fail; repeat case_match; cbn; done|]. split; [done|]. cbv zeta. set (s := (run_flow _ _ _ _ _).2).
  split; [ev|]. split; [ev|]. intros ins outs r H%events_in.
  assert (G : forallb (fun p => negb (brief "" "" p).2) (events_of s) = true) by ev.
  rewrite forallb_forall in G. apply elem_of_list_In in H. specialize (G _ H). cbn in G. destruct r; [discriminate G|reflexivity].
Qed.

(** What a flow returns is not reported when it completes. *)
Definition env_told_out : env := set_e_listener true (env1 (fun n v => AReturn (Some {["r" := VInt 5]}) None (AEnd ADone))).
Definition told_flow : defn := flow_of "f" [tr "a"] [] None (Some (mk_md {["p" := VInt 1]} (Some {["r" := VNil]}))).
Lemma completion_without_outputs :
  exists E ro d uri ins, built d /\ e_listener E = true /\
    let s := (run_flow E ro d uri ins).2 in
    delivered s = [(Some {["r" := VInt 5]}, None)] /\ statuses 0 s = [FActive; FCompleted] /\
    forall ins outs r, EvFlowEvent 0 FCompleted ins outs r ∈ trace s -> outs !! "r" = None.
Proof.
  exists env_told_out, ro0, told_flow, "u", ∅. split; [apply flow_of_built; ev|].
  split; [done|]. cbv zeta. set (s := (run_flow _ _ _ _ _).2).
  split; [ev|]. split; [ev|]. intros ins outs r H%events_in.
  assert (G : forallb (fun p => match (brief "" "r" p).1.2 with None => true | Some _ => false end) (events_of s) = true) by ev.
  rewrite forallb_forall in G. apply elem_of_list_In in H. specialize (G _ H). cbn in G. destruct (outs !! "r"); [discriminate G|reflexivity].
Qed.

(** An input that is an output with a default as well is not reported when the flow starts. *)
Definition both_flow : defn := flow_of "f" [tr "a"] [] None (Some (mk_md {["p" := VNil]} (Some {["p" := VInt 9]}))).
Lemma start_without_input :
  exists E ro d uri ins, built d /\ sync_env true E /\ e_listener E = true /\ ins !! "p" = Some (VInt 3) /\
    let s := (run_flow E ro d uri ins).2 in
    statuses 0 s = [FActive; FCompleted] /\
    forall ins outs r, EvFlowEvent 0 FActive ins outs r ∈ trace s -> ins !! "p" = None /\ outs !! "p" = None.
Proof.
  exists (set_e_listener true (env1 act_ok)), ro0, both_flow, "u", {["p" := VInt 3]}. split; [apply flow_of_built; ev|].
  split; [intros n v; cbn; unfold act_fail; repeat case_match; cbn; done|]. split; [done|]. split; [done|]. cbv zeta. set (s := (run_flow _ _ _ _ _).2).
  split; [ev|]. intros ins outs r H%events_in.
  assert (G : forallb (fun p => match brief "p" "p" p with (_, z, Some _, _, _) | (_, z, _, Some _, _) => negb (z =? FActive) | _ => true end) (events_of s) = true) by ev.
  rewrite forallb_forall in G. apply elem_of_list_In in H. specialize (G _ H). cbn in G.
  destruct (ins !! "p"); [discriminate G|]. destruct (outs !! "p"); [discriminate G|]. by split.
Qed.
