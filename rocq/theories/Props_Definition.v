(** Properties of the definition builder, for every representation and every behaviour of the
    library functions it calls. *)
From Verif Require Import Builder Examples.

(** C23: a representation is accepted if and only if every task is valid, and every link names
    tasks of its own section and, if it is an expression link, carries an expression that
    compiles. *)
Theorem C23_accepted_iff_valid : forall b r, (exists d, new_definition b r = BOk d) <-> rep_ok b r.
Proof. exact new_definition_ok. Qed.
Print Assumptions C23_accepted_iff_valid.

(** C23: the definition built has exactly the given links, in order, numbered consecutively through
    both sections; every task's link lists are exactly the links that name it; tasks and link types
    are as described. *)
Theorem C23_graph_as_described : forall b r d, new_definition b r = BOk d ->
  graph_ok d /\ d_name d = dr_name r /\ d_md d = dr_md r /\
  Forall2 link_as (dr_links r) (d_links d) /\
  (forall tk, tk ∈ d_tasks d -> exists r', last_rep (dr_tasks r) r' /\ task_as r' tk) /\
  (forall r', last_rep (dr_tasks r) r' -> exists tk, tk ∈ d_tasks d /\ task_as r' tk) /\
  match dr_eh r, d_eh d with
  | None, None => True
  | Some (ts, ls), Some h =>
      Forall2 link_as ls (eh_links h) /\
      (forall tk, tk ∈ eh_tasks h -> exists r', last_rep ts r' /\ task_as r' tk) /\
      (forall r', last_rep ts r' -> exists tk, tk ∈ eh_tasks h /\ task_as r' tk)
  | _, _ => False
  end.
Proof. exact new_definition_spec. Qed.
Print Assumptions C23_graph_as_described.

(** A description with a repeated task id, three kinds of links and an error handler is accepted;
    one with a link into the other section is not. *)
Example C23_example :
  (exists d, new_definition b0 rep1 = BOk d) /\
  ~ (exists d, new_definition b0 (mk_def_rep false "f" "" None [tr "a"] [ldep "a" "h"] (Some ([tr "h"], []))) = BOk d).
Proof.
  split.
  - assert ((match new_definition b0 rep1 with BOk _ => true | _ => false end) = true) as H by ev.
    destruct (new_definition b0 rep1); [eauto|done].
  - assert ((match new_definition b0 (mk_def_rep false "f" "" None [tr "a"] [ldep "a" "h"] (Some ([tr "h"], [])))
      with BOk _ => true | _ => false end) = false) as H by ev.
    intros [d Hd]. by rewrite Hd in H.
Qed.
