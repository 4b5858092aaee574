(** The result of a flow that nobody answered for. *)
From Verif Require Import Examples18.
Local Open Scope Z_scope.

(** C53: no activity of the main flow replies or returns, and the flow completes: exactly one result is delivered. It has, for each declared output without
    default, the value that was last assigned to the attribute of that name before the end, and no entry if none was; and nothing that is not declared.
    Missing: outputs with a default, which get the default whatever was assigned ([C53_refuted]); a recorder or a listener, for which it is false ([C31_refuted]). *)
Theorem C53_outputs_partial : forall E ro d uri ins mi outs, e_listener E = false -> e_ext E = false -> d_md d = Some (mk_md mi (Some outs)) ->
  let over := (run_flow E ro d uri ins).2 in
  let before := laps E (s_step over) (run_begin E ro ins (init_st d uri)).2 in
  (run_flow E ro d uri ins).1 = Ok tt -> main_status over = Some FCompleted ->
  delivered before = [] -> (forall dt er, EvReturn 0 dt er ∉ trace before) ->
  exists r er, delivered over = [(Some r, er)] /\
    (forall k, outs !! k = Some VNil -> r !! k = last (assigned 0 k (trace before))) /\
    (forall k v, outs !! k = Some v -> v <> VNil -> r !! k = Some v) /\ (forall k, outs !! k = None -> r !! k = None).
Proof. exact outputs_delivered. Qed.
Print Assumptions C53_outputs_partial.

(** "r" is set twice, "q" never, "c" has a default. *)
Example C53_outputs_example :
  let over := (run_flow env_outs ro0 outs_flow "u" ∅).2 in
  let before := laps env_outs (s_step over) (run_begin env_outs ro0 ∅ (init_st outs_flow "u")).2 in
  e_listener env_outs = false /\ e_ext env_outs = false /\ d_md outs_flow = Some (mk_md ∅ (Some {[ "r" := VNil; "q" := VNil; "c" := VInt 1 ]})) /\
  (run_flow env_outs ro0 outs_flow "u" ∅).1 = Ok tt /\ main_status over = Some FCompleted /\ delivered before = [] /\
  (forall dt er, EvReturn 0 dt er ∉ trace before) /\ assigned 0 "r" (trace before) = [VInt 5; VInt 6] /\ assigned 0 "q" (trace before) = [] /\
  delivered over = [(Some {[ "r" := VInt 6; "c" := VInt 1 ]}, None)].
Proof.
  cbv zeta. set (over := (run_flow _ _ _ _ _).2). set (before := laps _ _ _). split; [done|]. split; [done|]. split; [ev|]. split; [ev|]. split; [ev|]. split; [ev|]. split.
  { assert (forallb (fun e => match e with EvReturn 0 _ _ => false | _ => true end) (trace before) = true) as Hf by ev.
    intros dt er Hin. rewrite forallb_forall in Hf. by specialize (Hf _ (proj1 (elem_of_list_In _ _) Hin)). }
  split_and!; ev.
Qed.

(** C53 is false for an output with a default: an activity sets it to 7, the result says 1. *)
Theorem C53_refuted : exists E ro d uri ins, built d /\ sync_env true E /\ e_listener E = false /\ e_ext E = false /\
  let over := (run_flow E ro d uri ins).2 in
  let before := laps E (s_step over) (run_begin E ro ins (init_st d uri)).2 in
  (run_flow E ro d uri ins).1 = Ok tt /\ main_status over = Some FCompleted /\ assigned 0 "c" (trace before) = [VInt 7] /\
  exists r, delivered over = [(Some r, None)] /\ r !! "c" = Some (VInt 1).
Proof. exact default_wins. Qed.
Print Assumptions C53_refuted.
