(** The vocabulary of the statements about mocked loops. Nothing here is used by the model. No Go
    counterpart. *)
From Verif Require Export SpecVal.
Local Open Scope Z_scope.

(** The iterator has an element left. *)
Definition more (it : iter) : Prop :=
  match it with
  | ItArr c l => -1 <= c /\ c + 1 < Z.of_nat (length l)
  | ItObj c l => -1 <= c /\ c + 1 < Z.of_nat (length l)
  | ItInt c n => c + 1 < n
  end.

(** The evaluation of task instance [t] (contents [x]) in state [s] is to call the activity: the task is no
    iterator, or an element is left to iterate over. *)
Definition makes_round (E : env) (t : nat) (s : st) (x : tinst) : Prop :=
  t_type (ti_task x) = TIterator ->
  match ti_wd x !! "_iterator" with
  | Some (WIter it) => more it
  | Some _ => False
  | None => exists lc v, t_loop (ti_task x) = Some lc /\ iterates E t s lc v /\ iterable E v /\ elements_of E v <> []
  end.
