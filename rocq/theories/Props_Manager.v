(** Properties of the flow manager and of the recording modes. *)
From Verif Require Import ManagerProofs Examples.
Local Open Scope Z_scope.

(** C35: in any history of lookups, a lookup asks the provider (once) exactly if no earlier lookup of the
    same uri has succeeded, and then answers with the definition built from what the provider gave, or with
    its error; otherwise it answers with the definition of that first success. *)
Theorem C35_cache : forall prov b us h1 u a k h2,
  (get_flows prov b us new_flow_manager).1 = h1 ++ (u, a, k) :: h2 ->
  match first_success u h1 with
  | Some d => k = 0%nat /\ a = inr d
  | None => k = 1%nat /\ a = match prov (asked_in h1) u with
                        | inl e => inl e
                        | inr r => match new_definition b r with BOk d => inr d | BErr m => inl (EOther m) end
                        end
  end.
Proof. exact history. Qed.
Print Assumptions C35_cache.

(** C35: looking up a resource leaves the loaded flows alone. *)
Theorem C35_resources : forall res prov b uri m,
  String.prefix "res://" uri = true -> (get_definition res prov b uri m).2 = m.
Proof. exact resource_lookup. Qed.
Print Assumptions C35_resources.

(** The provider does not know "u" when asked first, and finds "v" only when asked the third time. *)
Definition prov1 (n : nat) (u : string) : err + def_rep :=
  if (2 <=? n)%nat then inr (mk_def_rep false ("flow " +:+ u) "" None [] [] None) else inl (EOther ("not found: " +:+ u)).
Example C35_example :
  (fun x => (x.1.1, match x.1.2 with inr d => Some (d_name d) | inl _ => None end, x.2)) <$>
    (get_flows prov1 b0 ["u"; "v"; "v"; "u"; "v"; "u"] new_flow_manager).1 =
  [("u", None, 1); ("v", None, 1); ("v", Some "flow v", 1); ("u", Some "flow u", 1); ("v", Some "flow v", 0); ("u", Some "flow u", 0)]%nat /\
  String.prefix "res://" "res://flow:x" = true.
Proof. split; ev. Qed.

(** C41: the accepted mode names are the documented ones in any letter case. *)
Theorem C41_names : forall s m, to_recording_mode s = (m, None) <-> same_ignoring_case s (mode_name m).
Proof. exact recording_mode_name. Qed.
Print Assumptions C41_names.

(** C41: anything else is refused, and the mode is off then. *)
Theorem C41_refused : forall s, (forall m, ~ same_ignoring_case s (mode_name m)) ->
  (to_recording_mode s).1 = RMOff /\ is_Some (to_recording_mode s).2.
Proof. exact recording_mode_other. Qed.
Print Assumptions C41_refused.

(** C41: the modes that record steps and those that record snapshots. *)
Theorem C41_steps : forall m, record_steps m = true <-> m = RMStep \/ m = RMFull \/ m = RMDebugger.
Proof. exact record_steps_spec. Qed.
Print Assumptions C41_steps.
Theorem C41_snapshots : forall m, record_snapshot m = true <-> m = RMSnapshot \/ m = RMFull.
Proof. exact record_snapshot_spec. Qed.
Print Assumptions C41_snapshots.

(** C41: the older settings: steps are recorded if the step mode is "full", snapshots if the snapshot mode
    is; changes are tracked exactly if steps are recorded and there is a recorder. *)
Theorem C41_older_settings : forall svc sm pm,
  let r := initialize svc (Some (None, sm, pm)) in
  ir_ready r = true /\
  (record_steps (ir_mode r) = true <-> same_ignoring_case sm "full") /\
  (record_snapshot (ir_mode r) = true <-> same_ignoring_case pm "full") /\
  (ir_tracking r = true <-> svc = true /\ same_ignoring_case sm "full").
Proof. exact initialize_older. Qed.
Print Assumptions C41_older_settings.
Theorem C41_mode_setting : forall svc s sm pm m, same_ignoring_case s (mode_name m) ->
  initialize svc (Some (Some s, sm, pm)) = mk_ir m true (svc && record_steps m).
Proof. exact initialize_named. Qed.
Print Assumptions C41_mode_setting.

Example C41_example :
  to_recording_mode "SnapShot" = (RMSnapshot, None) /\ (to_recording_mode "steps").1 = RMOff /\
  is_Some (to_recording_mode "steps").2 /\ same_ignoring_case "FULL" (mode_name RMFull) /\
  initialize true (Some (None, "Full", "")) = mk_ir RMStep true true /\
  initialize true (Some (Some "steps", "full", "full")) = mk_ir RMOff false false.
Proof. split_and!; try ev; [by eexists|]. apply recording_mode_name. ev. Qed.
