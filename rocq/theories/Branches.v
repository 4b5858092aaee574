(** Branches with an otherwise link. No Go counterpart (proof infrastructure). *)
From Verif Require Export Fan.
Local Open Scope Z_scope.

Lemma is_type_eq ty l : is_type ty l = true <-> l_type l = ty.
Proof. unfold is_type. by rewrite bool_decide_eq_true. Qed.
Lemma filter_in {A} (p : A -> bool) l a : a ∈ List.filter p l <-> a ∈ l /\ p a = true.
Proof. by rewrite !elem_of_list_In, filter_In. Qed.
Lemma fan_out_in prio ls fol l : l ∈ ls -> fol l = true -> l_type l <> LtError -> l ∈ fan_out prio ls fol.
Proof.
  intros Hl Hf He. unfold fan_out. rewrite !elem_of_app. assert (forall ty, l_type l = ty -> l ∈ List.filter (fun l => is_type ty l && fol l) ls) as H.
  { intros ty Hty. apply filter_in. split; [done|]. rewrite Hf, andb_true_r. by apply is_type_eq. }
  destruct (l_type l) eqn:Hty; [left; by apply H| | |done|]; right; left; destruct prio; rewrite !elem_of_app; eauto.
Qed.
Lemma one_branch_taken E d uri s t x s1 y1 lo :
  running E d uri s -> built d -> built_env E -> cov_ok E -> links_ok E -> settings_ok E -> e_conc E = false ->
  evaluates E s t x (inr EvalDone) s1 -> s_insts s1 !! ti_inst x = Some y1 -> i_force y1 = false ->
  NoDup (t_id <$> all_tasks (i_def y1)) -> (forall tk, tk ∈ all_tasks (i_def y1) -> t_act tk <> None) ->
  let ls := t_to (ti_task x) in
  lo ∈ ls -> l_type lo = LtExprOtherwise -> (forall l, l ∈ ls -> l_type l = LtExprOtherwise -> l = lo) ->
  (exists l, l ∈ ls /\ l_type l = LtExpression) ->
  let scheduled l := exists tk, leads_to (i_def y1) l tk /\
    (decided_with y1 ls tk = true -> (ti_inst x, t_id tk) ∈ waiting_work (do_step E s).2) in
  (exists l, l ∈ ls /\ l_type l = LtExpression /\ EvLinkEval (ti_inst x) (l_id l) true ∈ happened s1 (do_step E s).2 /\ scheduled l) \/
  ((forall l, l ∈ ls -> l_type l = LtExpression -> EvLinkEval (ti_inst x) (l_id l) false ∈ happened s1 (do_step E s).2) /\ scheduled lo).
Proof.
  intros R Hb Hbe Hc Hl Hs Hcc Ev Hy Hf Hn Ha ls Hlo Hto Hu (le & Hle & Hte) scheduled.
  destruct (successors E d uri s t x s1 y1 R Hb Hbe Hc Hl Hs Hcc Ev Hy Hf Hn Ha) as (v & ts & q & Hv & Hts & Hw). fold ls in Hv, Hts, Hw.
  assert (forall l, l ∈ ls -> followed ls v l = true -> l_type l <> LtError -> scheduled l) as Hsch.
  { intros l Hin Hfo Hne. assert (l ∈ List.filter (followed ls v) (fan_out (e_prio E) ls (followed ls v))) as Hi.
    { apply filter_in. split; [|done]. by apply fan_out_in. }
    apply elem_of_list_lookup in Hi as [k Hk]. destruct (Forall2_lookup_l _ _ _ _ _ Hts Hk) as (tk & Htk & Hlt). exists tk. split; [done|]. intros Hd.
    rewrite Hw. apply elem_of_app. right. apply elem_of_app. left. apply elem_of_list_fmap. exists tk. split; [done|]. apply filter_in. split; [|done].
    by eapply elem_of_list_lookup_2. }
  destruct (existsb (fun l => is_type LtExpression l && v (l_id l)) ls) eqn:Hex.
  - left. apply existsb_exists in Hex as (l & Hin & [Hty Hvl]%andb_true_iff). apply elem_of_list_In in Hin. apply is_type_eq in Hty.
    exists l. split; [done|]. split; [done|]. split; [rewrite <- Hvl; by apply Hv|]. apply Hsch; [done| |by rewrite Hty]. unfold followed. by rewrite Hty.
  - right. assert (forall l, l ∈ ls -> l_type l = LtExpression -> v (l_id l) = false) as Hnone.
    { intros l Hin Hty. destruct (v (l_id l)) eqn:Hvl; [|done]. assert (existsb (fun l => is_type LtExpression l && v (l_id l)) ls = true) as Ht; [|by rewrite Hex in Ht].
      apply existsb_exists. exists l. split; [by apply elem_of_list_In|]. rewrite Hvl, andb_true_r. by apply is_type_eq. }
    split; [intros l Hin Hty; rewrite <- (Hnone l Hin Hty); by apply Hv|]. apply Hsch; [done| |by rewrite Hto]. unfold followed. rewrite Hto.
    apply andb_true_iff. split; [apply andb_true_iff; split|].
    + apply existsb_exists. exists le. split; [by apply elem_of_list_In|by apply is_type_eq].
    + apply forallb_forall. intros l Hin%elem_of_list_In. apply negb_true_iff. destruct (is_type LtExpression l) eqn:Hty; [|done].
      cbn [andb]. apply Hnone; [done|by apply is_type_eq].
    + assert (lo ∈ List.filter (is_type LtExprOtherwise) ls) as Hi by (apply filter_in; split; [done|by apply is_type_eq]).
      destruct (last (List.filter (is_type LtExprOtherwise) ls)) as [l'|] eqn:Hla.
      * apply last_Some in Hla as [l'' Hl'']. assert (l' ∈ List.filter (is_type LtExprOtherwise) ls) as [Hin' Hty']%filter_in by (rewrite Hl''; set_solver).
        rewrite (Hu l' Hin' (proj1 (is_type_eq _ _) Hty')). by apply Nat.eqb_eq.
      * apply last_None in Hla. rewrite Hla in Hi. by apply elem_of_nil in Hi.
Qed.
