(** Specification vocabulary for the values tasks leave in the scope of a flow. *)
From Verif Require Export Spec.
Local Open Scope Z_scope.

(** The values given to attribute [k] of flow [i], in order. *)
Definition assigned (i : nat) (k : string) (l : list event) : list val :=
  omap (fun e => match e with EvSet j m _ => if bool_decide (j = i) then m !! k else None | _ => None end) l.

(** The names under which a task leaves its accumulated outputs and a single output. *)
Definition all_key (id : string) : string := "_A." +:+ id.
Definition out_key (id n : string) : string := "_A." +:+ id +:+ "." +:+ n.

(** The outputs of a task instance as one object. *)
Definition out_obj (x : tinst) : val := VObj (map_to_list (ti_out x)).

(** What an attribute holds, taken as an array; no attribute is an empty one. *)
Definition held (E : env) (o : option val) (b : list val) : Prop :=
  match o with None => b = [] | Some v => e_toarr E v = Some b end.

(** The evaluation ended with the activity done (an iterator that is done has called no activity). *)
Definition succeeded (tk : task) (r : err + eval_result) : bool :=
  match r with
  | inr EvalRepeat => true
  | inr EvalDone => match t_type tk with TIterator => false | _ => true end
  | _ => false
  end.
(** The successful ones of some evaluations of a task. *)
Definition successes (tk : task) (l : list round) : list round := filter (fun r => succeeded tk (rd_result r)) l.

(** The evaluation [r] of task instance [t] left these outputs. *)
Definition left_outputs (E : env) (t : nat) (r : round) (o : val) : Prop :=
  exists x s1 x1, evaluates E (rd_from r) t x (rd_result r) s1 /\ s_tis s1 !! t = Some x1 /\ o = out_obj x1.

(** The value of attribute [k] of flow [i]. *)
Definition attr_of (s : st) (i : nat) (k : string) : option val := y ← s_insts s !! i; i_attrs y !! k.

(** The activity starts a subflow with an input [n]. *)
Fixpoint act_gives (n : string) (a : act) : Prop :=
  match a with
  | AEnd _ => False
  | AScope _ _ k | AOut _ _ k | AOuts _ k | AReply _ _ k | AReturn _ _ k => act_gives n k
  | AStart _ ins k1 k2 => is_Some (ins !! n) \/ act_gives n k1 \/ act_gives n k2
  end.
(** Some activity does. *)
Definition gives (E : env) (n : string) : Prop :=
  exists j v, act_gives n (e_act E j v) \/ exists a, e_post E j v = Some a /\ act_gives n a.

(** No dot in a name, in the names of the tasks of a flow, of all subflows. *)
Definition dotless (a : string) : Prop := forall p q, a <> p +:+ "." +:+ q.
Definition dotless_flow (d : defn) : Prop := forall tk, tk ∈ all_tasks d -> dotless (t_id tk).
Definition dotless_env (E : env) : Prop := forall n uri d, e_def E n uri = DOk d -> dotless_flow d.

(** From [s0] to [s] by steps and recording of states, none of the steps with task [a] of flow [i]. *)
Inductive meanwhile (E : env) (i : nat) (a : string) (s0 : st) : st -> Prop :=
| mw_here : meanwhile E i a s0 s0
| mw_record s : meanwhile E i a s0 s -> meanwhile E i a s0 (record_state E s).2
| mw_step s :
    meanwhile E i a s0 s ->
    (forall w t q x, s_queue s = (w, t) :: q -> s_tis s !! t = Some x -> ti_inst x <> i \/ t_id (ti_task x) <> a) ->
    meanwhile E i a s0 (do_step E s).2.

(** The flow-context attributes. *)
Definition context_name (k : string) : Prop := exists n, k = "_fctx." +:+ n.
(** Attributes with errors. *)
Definition error_name (k : string) : Prop := k = "_E" \/ exists id, k = "_E." +:+ id.
