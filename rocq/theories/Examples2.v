(** More concrete flows: loops and retries. *)
From Verif Require Export Examples.
Local Open Scope Z_scope.

(** An iterator over two elements, its successor, and a task beside it (test data). *)
Definition iter_flow : defn :=
  flow_of "f" [trs "a" "iterator" {["iterate" := VArr [VStr "x"; VStr "y"]]}; tr "b"; tr "c"] [ldep "a" "b"] None None.
(** A doWhile task and a task beside it (test data). *)
Definition dw_flow : defn :=
  flow_of "f" [trs "a" "doWhile" {["condition" := VStr "more"]}; tr "c"] [] None None.
(** The condition holds for the first two rounds (test data). *)
Definition env_dw : env :=
  set_e_cond (fun _ v _ => XOk (VBool (match v_wd v !! "iteration" with Some (WDoWhile k) => k <? 2 | _ => false end))) (env1 act_ok).
(** A task with two retries (test data). *)
Definition retry_flow : defn :=
  flow_of "f" [trs "a" "" {["retryOnError" := VObj [("count", VInt 2); ("interval", VInt 0)]]}; tr "b"] [ldep "a" "b"] None None.
(** Activities fail with a retriable error as long as fewer than [k] external calls were made (test data). *)
Definition env_retry (k : nat) : env :=
  env1 (fun n v => if (n <? k)%nat then AEnd (AErr (EAct "failed" "42" VNil true "")) else act_ok n v).

(** The evaluations of [t] in the next [n] steps, by computation; [false]: it cannot be told. *)
Fixpoint walk (E : env) (t n : nat) (l : list round) (s : st) : list round * st * bool :=
  match n with
  | O => (l, s, true)
  | S n' =>
      match s_queue s with
      | (w, u) :: q =>
          if bool_decide (u = t) then
            match main_status s, s_tis s !! t with
            | Some z, Some x =>
                match beh_eval E (t_type (ti_task x)) t (set_s_log (EvQDel w (ti_inst x) (t_id (ti_task x)) :: s_log s)
                        (set_s_queue q (set_s_step (S (s_step s)) s))) with
                | (Ok r, s1) =>
                    if bool_decide (z = FActive) && bool_decide (ti_status x <> TSkipped /\ ti_status x <> TDone /\ ti_status x <> TWaiting)
                    then walk E t n' (l ++ [mk_round s (happened s s1) r]) (do_step E s).2
                    else (l, s, false)
                | _ => (l, s, false)
                end
            | _, _ => (l, s, false)
            end
          else walk E t n' l (do_step E s).2
      | [] => walk E t n' l (do_step E s).2
      end
  end.
Lemma walk_rounds E t n s0 l s :
  rounds E t s0 l s -> (walk E t n l s).2 = true -> rounds E t s0 (walk E t n l s).1.1 (walk E t n l s).1.2.
Proof.
  revert l s. induction n as [|n IH]; intros l s H; cbn [walk]; [done|].
  destruct (s_queue s) as [|[w u] q] eqn:Hq.
  { apply IH. apply rounds_other; [done|]. by rewrite Hq. }
  case_bool_decide as Hu.
  - subst u. destruct (main_status s) as [z|] eqn:Hz; [|done]. destruct (s_tis s !! t) as [x|] eqn:Hx; [|done].
    destruct (beh_eval _ _ _ _) as [[r|?| |] s1] eqn:Hr; try done. destruct (bool_decide (z = FActive)) eqn:Ha; cbn [andb]; [|done].
    apply bool_decide_eq_true in Ha. destruct (bool_decide (ti_status x <> TSkipped /\ _)) eqn:Hs; [|done].
    apply bool_decide_eq_true in Hs as (H1 & H2 & H3). apply IH. apply (rounds_eval E t s0 l s x r s1); [done| |done].
    split_and!; [by rewrite Hz, Ha|done..|]. exists w, q. split; [done|]. rewrite bool_decide_false by done. exact Hr.
  - apply IH. apply rounds_other; [done|]. intros w' q'. rewrite Hq. congruence.
Qed.

(** The evaluation the next step makes, by computation. *)
Definition next_eval (E : env) (s : st) : option (nat * tinst * (err + eval_result) * st) :=
  match main_status s, s_queue s with
  | Some z, (w, t) :: q =>
      match s_tis s !! t with
      | Some x =>
          if bool_decide (z = FActive) && bool_decide (ti_status x <> TSkipped /\ ti_status x <> TDone) then
            match (if bool_decide (ti_status x = TWaiting) then beh_post else beh_eval) E (t_type (ti_task x)) t
                (set_s_log (EvQDel w (ti_inst x) (t_id (ti_task x)) :: s_log s)
                   (set_s_queue q (set_s_step (S (s_step s)) s))) with
            | (Ok r, s1) => Some (t, x, r, s1)
            | _ => None
            end
          else None
      | None => None
      end
  | _, _ => None
  end.
Lemma eval_check E s (p : nat -> tinst -> err + eval_result -> st -> bool) :
  match next_eval E s with Some (t, x, r, s1) => p t x r s1 | None => false end = true ->
  exists t x r s1, evaluates E s t x r s1 /\ p t x r s1 = true.
Proof.
  unfold next_eval. destruct (main_status s) as [z|] eqn:Hz; [|done]. destruct (s_queue s) as [|[w t] q] eqn:Hq; [done|].
  destruct (s_tis s !! t) as [x|] eqn:Hx; [|done]. destruct (bool_decide (z = FActive)) eqn:Ha; cbn [andb]; [|done].
  apply bool_decide_eq_true in Ha. destruct (bool_decide (ti_status x <> TSkipped /\ _)) eqn:Hs; [|done].
  apply bool_decide_eq_true in Hs as (H1 & H2).
  destruct ((if bool_decide (ti_status x = TWaiting) then beh_post else beh_eval) _ _ _ _) as [[r|?| |] s1] eqn:Hr; try done.
  intros Hp. exists t, x, r, s1. split; [|done]. split_and!; [by rewrite Hz, Ha|done..|]. eauto.
Qed.

#[global] Instance err_eq_dec : EqDecision err.
Proof. solve_decision. Defined.
#[global] Instance eval_result_eq_dec : EqDecision eval_result.
Proof. solve_decision. Defined.
Lemma env1_smooth a tk : is_Some (t_act tk) -> t_loop tk = None -> smooth (env1 a) tk.
Proof. intros [c Hc] Hl. split_and!; [apply env1_mappers|done|by rewrite Hc|by rewrite Hl]. Qed.
Lemma env1_cov a : cov_ok (env1 a).
Proof. by intros c [=]. Qed.
Lemma no_error_check tk : Forall (fun l => l_type l <> LtError) (t_to tk) -> no_error_link tk.
Proof. intros H l Hl. revert l Hl. by apply Forall_forall. Qed.

(** The last event with [p], by computation. *)
Fixpoint last_event {A} (p : event -> option A) (l : list event) : option A :=
  match l with
  | [] => None
  | e :: l' => match last_event p l' with Some a => Some a | None => p e end
  end.
Lemma last_event_none {A} (p : event -> option A) l e : last_event p l = None -> e ∈ l -> p e = None.
Proof.
  induction l as [|e' l IH]; cbn [last_event]; [by intros _ ?%elem_of_nil|]. destruct (last_event p l); [done|].
  intros He Hin. apply elem_of_cons in Hin as [->|Hin]; [done|by apply IH].
Qed.
Lemma last_event_some {A} (p : event -> option A) l a : last_event p l = Some a ->
  exists l1 e l2, l = l1 ++ e :: l2 /\ p e = Some a /\ forall e', e' ∈ l2 -> p e' = None.
Proof.
  induction l as [|e l IH]; cbn [last_event]; [done|]. destruct (last_event p l) as [b|] eqn:Hb.
  - intros [= ->]. destruct (IH eq_refl) as (l1 & e' & l2 & -> & H1 & H2). by exists (e :: l1), e', l2.
  - intros He. exists [], e, l. split_and!; [done|done|]. intros e'. by apply last_event_none.
Qed.
(** The returns and results among the events. *)
Definition answered (e : event) : option (option nat * option vmap * option err) :=
  match e with EvReturn i d er => Some (Some i, d, er) | EvResult d er => Some (None, d, er) | _ => None end.
Lemma last_return l i d er : last_event answered l = Some (Some i, d, er) ->
  exists l1 l2, l = l1 ++ EvReturn i d er :: l2 /\ (forall j a b, EvReturn j a b ∉ l2) /\ (forall a b, EvResult a b ∉ l2).
Proof.
  intros (l1 & e & l2 & -> & He & Hn)%last_event_some. exists l1, l2. split_and!.
  - destruct e; try discriminate He. cbn in He. by injection He as -> -> ->.
  - intros j a b Hin. by specialize (Hn _ Hin).
  - intros a b Hin. by specialize (Hn _ Hin).
Qed.
