(** Resuming an instance: the operation OpResume of /repo/action.go. *)
From Verif Require Export RunLoop.
Local Open Scope Z_scope.

(** UpdateAttrs, /repo/instance/instance.go:276-287: it holds the lock of the flow (there is one
    exactly with concurrent task execution, /repo/instance/ind_instance.go:84-87) while it calls
    SetValue, which takes the same lock (254-258): with anything to set, that never returns. *)
Definition update_attrs (E : env) (inputs : vmap) : M unit :=
  if bool_decide (inputs = ∅) then ret tt
  else if e_conc E then (fun s => (Blocked, s)) else set_values E 0 inputs.

(** Run with OpResume, /repo/action.go:282-446, once an initial state has been given: the instance is
    taken as it is; Start is replaced by UpdateAttrs (337-341). The instance is the live one, with
    its settings ([E]). As in RunLoop.v the loop is the one without concurrent task execution; what
    comes before it is the same in both modes. *)
Definition run_resume (E : env) (ro : run_opts) (inputs : vmap) : M unit :=
  (if e_ext E then flow_state ;; log_ev EvRecStart else ret tt) ;;
  (if String.eqb (ro_event ro) "" then ret tt
   else set_value E 0 "event.id" (VStr (ro_event ro))) ;;
  update_attrs E inputs ;;
  upd_inst 0 (set_i_handler true) ;;
  (if e_ext E then
     if (ro_init ro <=? 0)%Z then record_state E else log_ev EvSkipStep
   else ret tt) ;;
  run_body E ro.
