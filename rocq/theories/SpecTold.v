(** What a listener is told about flows: a small specification. No Go counterpart. *)
From Verif Require Export SpecVal.
Local Open Scope Z_scope.

(** The status changes of flows, and the events about them, in order: flow instance and status. *)
Definition changes (l : list event) : list (nat * Z) :=
  omap (fun e => match e with EvFlowStatus i z => Some (i, z) | _ => None end) l.
Definition notices (l : list event) : list (nat * Z) :=
  omap (fun e => match e with EvFlowEvent i z _ _ _ => Some (i, z) | _ => None end) l.

(** Name [k] is one flow [i], with definition [d], declares as an output, or that was returned or replied. *)
Definition offered (i : nat) (d : defn) (k : string) (l : list event) : Prop :=
  (exists md mo v, d_md d = Some md /\ md_out md = Some mo /\ mo !! k = Some v) \/
  (exists r e v, (EvReturn i (Some r) e ∈ l \/ EvResult (Some r) e ∈ l) /\ r !! k = Some v).

(** An event about flow [i], with definition [d], that reports status [z], inputs, outputs and an error, after the events [l]:
    it comes directly after the change of the status; what it reports are values of the flow at that time, each as an input or
    as an output; outputs are only those the flow offers. Nothing is left out, except that before a flow has completed its
    values may not show under the names it offers. Only a flow that completed has outputs, only one that failed an error. *)
Definition faithful (i : nat) (d : defn) (z : Z) (ins outs : vmap) (e : option err) (l : list event) : Prop :=
  last l = Some (EvFlowStatus i z) /\
  (forall k v, ins !! k = Some v \/ outs !! k = Some v -> last (assigned i k l) = Some v) /\
  (forall k v, z <> FNotStarted -> last (assigned i k l) = Some v ->
     ins !! k = Some v \/ outs !! k = Some v \/ (z <> FCompleted /\ offered i d k l)) /\
  (forall k, is_Some (ins !! k) -> outs !! k = None) /\
  (forall k, is_Some (outs !! k) -> z = FCompleted /\ offered i d k l) /\
  (z <> FFailed -> e = None).
