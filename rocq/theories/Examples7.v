(** Cases for the theorem about observers. *)
From Verif Require Export Observers Examples5.
Local Open Scope Z_scope.

(** Checks of [has_returned] and [all_return]. *)
Definition returnedb (i : nat) (l : list event) : bool :=
  fold_left (fun b e => match e with
    | EvReturn j None _ => b && negb (j =? i)%nat | EvReturn j (Some _) _ => b || (j =? i)%nat | EvResult None _ => false | _ => b end) l false.
Definition no_outputsb (d : defn) : bool := match d_md d with Some (mk_md _ (Some _)) => false | _ => true end.
Definition all_returnb (s : st) : bool :=
  forallb (fun k => match trace s !! k with
    | Some (EvFlowStatus i z) => negb (z =? FCompleted) || (i =? 0)%nat || returnedb i (take k (trace s)) ||
        match s_insts s !! i with Some y => no_outputsb (i_def y) | None => true end
    | _ => true end) (seq 0 (length (trace s))) &&
  (returnedb 0 (trace s) || match s_insts s !! 0%nat with Some y => no_outputsb (i_def y) | None => true end).
Lemma returned_check i l : returnedb i l = true -> has_returned i l.
Proof.
  unfold returnedb. induction l as [|e l IH] using rev_ind; [done|]. rewrite fold_left_app. cbn [fold_left]. set (b := fold_left _ l false) in *. clearbody b.
  assert (K : b = true -> ~ nil_result i e -> has_returned i (l ++ [e])).
  { intros Hb He. destruct (IH Hb) as (p & d & er & q & -> & Hq). exists p, d, er, (q ++ [e]). split; [by rewrite <- app_assoc|]. apply Forall_app. split; [done|by constructor]. }
  destruct e; try (intros H; apply K; [exact H|cbn; tauto]).
  - destruct d as [d|].
    + intros [H|H]%orb_true_iff; [apply K; [done|cbn; tauto]|]. apply Nat.eqb_eq in H as ->. eexists l, d, _, []. split; [reflexivity|constructor].
    + intros [H1 H2]%andb_true_iff. apply K; [done|]. intros ->. by rewrite Nat.eqb_refl in H2.
  - destruct d; [|done]. intros H. apply K; [done|cbn; tauto].
Qed.
Lemma no_outputs_check d : no_outputsb d = true -> no_outputs d.
Proof. unfold no_outputsb, no_outputs. intros H md Hm. rewrite Hm in H. by destruct md as [? []]. Qed.
Lemma all_return_check s : all_returnb s = true -> all_return s.
Proof.
  intros [H1 H2]%andb_true_iff. split.
  - intros i y l1 l2 Hi Ht Hy. rewrite forallb_forall in H1. specialize (H1 (length l1)). rewrite Ht in H1.
    rewrite list_lookup_middle in H1 by done. cbn iota in H1. rewrite Z.eqb_refl, take_app, Hy in H1. cbn [negb orb] in H1.
    destruct ((i =? 0)%nat) eqn:H0; [by apply Nat.eqb_eq in H0|].
    destruct (returnedb i l1) eqn:Hr; [right; by apply returned_check|]. left. apply no_outputs_check, H1. apply in_seq. rewrite app_length. cbn. lia.
  - intros _ y Hy. rewrite Hy in H2. apply orb_true_iff in H2 as [H|H]; [right; by apply returned_check|left; by apply no_outputs_check].
Qed.

(** A flow and its subflow that declare outputs and return them (test data). *)
Definition out_md : flow_md := mk_md ∅ (Some {[ "o" := VNil ]}).
Definition out_sub : defn := flow_of "g" [tr "x"] [] None (Some out_md).
Definition out_flow : defn := flow_of "f" [tr "a"; tr "b"] [ldep "a" "b"] None (Some out_md).
Definition env_out : env := set_e_def (fun _ _ => DOk out_sub) (set_e_act (fun n v =>
  if bool_decide (v_task v = "x") then AReturn (Some {["o" := VInt 5]}) None (AEnd ADone)
  else if bool_decide (v_task v = "b") then AReturn (Some {["o" := VInt 6]}) None (AEnd ADone) else sub_act ["a"] n v) env_sub).
