(** Witnesses and examples for recorded steps and snapshots. *)
From Verif Require Export SpecRec Findings Examples.
From Verif Require Import Run Snapshots.
Local Open Scope Z_scope.

(** The environment with a recorder. *)
Definition rec_env (m : recmode) (E : env) : env := set_e_ext true (set_e_track true (set_e_rec (Some m) E)).
(** Some order of the maps of a step. *)
Definition fo1 (m : gmap nat flow_chg) : list flow_chg := (map_to_list m).*2.
Definition qo1 (m : gmap nat queue_chg) : list (nat * queue_chg) := map_to_list m.
(** After [n] rounds of the loop of a run. *)
Definition at_lap (E : env) (d : defn) (n : nat) : st := laps E n (run_begin E ro0 ∅ (init_st d "u")).2.
Lemma at_lap_visited E d n : (run_begin E ro0 ∅ (init_st d "u")).1 = Ok tt -> visited E d "u" (at_lap E d n).
Proof. intros H. left. apply laps_running. by constructor. Qed.

(** ** Deciding the side conditions *)

Definition del_task (i : nat) (id : string) (e : event) : bool :=
  match e with EvTaskDel j id' => Nat.eqb i j && String.eqb id id' | _ => false end.
Definition del_link (i n : nat) (e : event) : bool :=
  match e with EvLinkDel j m => Nat.eqb i j && Nat.eqb n m | _ => false end.
Fixpoint in_order_b (l : list event) : bool :=
  match l with
  | [] => true
  | e :: r =>
      in_order_b r &&
      match e with
      | EvTaskAdd i id | EvTaskUpd i id _ | EvTaskTrk i id _ => negb (existsb (del_task i id) r)
      | EvLinkAdd i n | EvLinkSet i n _ | EvLinkUpd i n _ => negb (existsb (del_link i n) r)
      | EvTasksClear _ | EvSkipStep => false
      | _ => true
      end
  end.
Lemma no_del_task i id r : negb (existsb (del_task i id) r) = true -> EvTaskDel i id ∉ r.
Proof.
  intros H Hin. apply negb_true_iff in H. apply elem_of_list_In in Hin.
  assert (existsb (del_task i id) r = true) as Ht; [|congruence].
  apply existsb_exists. exists (EvTaskDel i id). split; [done|]. simpl. by rewrite Nat.eqb_refl, String.eqb_refl.
Qed.
Lemma no_del_link i n r : negb (existsb (del_link i n) r) = true -> EvLinkDel i n ∉ r.
Proof.
  intros H Hin. apply negb_true_iff in H. apply elem_of_list_In in Hin.
  assert (existsb (del_link i n) r = true) as Ht; [|congruence].
  apply existsb_exists. exists (EvLinkDel i n). split; [done|]. simpl. by rewrite !Nat.eqb_refl.
Qed.
Lemma in_order_check l : in_order_b l = true -> in_order l.
Proof.
  induction l as [|e r IH]; [done|]. cbn [in_order_b in_order]. intros [H1 H2]%andb_true_iff.
  split; [by apply IH|]. destruct e; try done; by (apply no_del_task || apply no_del_link).
Qed.

Definition reported_b (s : st) : bool :=
  forallb (fun e => match e with
    | EvLinkSet i n _ | EvLinkUpd i n _ =>
        bool_decide (link_given true (s_log s) i n = link_given false (s_log s) i n)
    | _ => true end) (s_log s).
Lemma link_given_none told l i n : (forall z, EvLinkSet i n z ∉ l /\ EvLinkUpd i n z ∉ l) -> link_given told l i n = None.
Proof.
  induction l as [|e r IH]; intros H; [done|].
  assert (link_given told r i n = None) as IHr.
  { apply IH. intros z. destruct (H z) as [A B]. split; intros Hin; [apply A|apply B]; by right. }
  destruct e as [| | | | | | | | | | | |i0 l0|i0 l0 z0|i0 l0 z0| | | | | | | | | | | | | | | | | | | ]; simpl; try done.
  - destruct told; [done|]. case_decide as Hd; [|done]. destruct Hd as [-> ->].
    destruct (H z0) as [A _]. exfalso. apply A. by left.
  - destruct told; [|done]. case_decide as Hd; [|done]. destruct Hd as [-> ->].
    destruct (H z0) as [_ A]. exfalso. apply A. by left.
Qed.
Lemma reported_check s : reported_b s = true -> links_reported s.
Proof.
  intros H i n. unfold reported_b in H. rewrite forallb_forall in H.
  destruct (existsb (fun e => match e with EvLinkSet j m _ | EvLinkUpd j m _ => Nat.eqb j i && Nat.eqb m n | _ => false end) (s_log s)) eqn:Hx.
  - apply existsb_exists in Hx as (e & Hin & He). specialize (H e Hin).
    destruct e; try done; apply andb_true_iff in He as [He1 He2]; apply Nat.eqb_eq in He1, He2; subst; by apply bool_decide_eq_true in H.
  - rewrite !link_given_none; [done|..]; intros z; split; intros Hin; apply elem_of_list_In in Hin;
      (assert (existsb (fun e => match e with EvLinkSet j m _ | EvLinkUpd j m _ => Nat.eqb j i && Nat.eqb m n | _ => false end) (s_log s) = true); [|congruence]);
      apply existsb_exists; eexists; (split; [exact Hin|]); simpl; by rewrite !Nat.eqb_refl.
Qed.

(** ** Witnesses *)

(** A task that fails, and an error handler. *)
Definition handled : defn := flow_of "f" [tr "a"] [] (Some ([tr "h"], [])) None.
Definition env_handled : env := rec_env RMStep (env1 (act_fail ["a"])).

Lemma clear_not_recorded :
  exists E d uri s, built d /\ acyclic d /\ visited E d uri s /\ (exists r, s_log s = EvStep :: r) /\ links_reported s /\
    (exists v, replay (recorded false 0 uri s) !! 0%nat = Some v /\ is_Some (fv_tasks v !! "a")) /\
    (exists v, live s !! 0%nat = Some v /\ fv_tasks v !! "a" = None).
Proof.
  exists env_handled, handled, "u", (at_lap env_handled handled 1).
  split_and!.
  - apply flow_of_built; ev.
  - apply (rank_check _ (fun _ _ => 0%nat)); ev.
  - apply at_lap_visited; ev.
  - vm_compute. by eexists.
  - apply reported_check; ev.
  - vm_compute. eexists. split; [reflexivity|]. by eexists.
  - vm_compute. eexists. by split; reflexivity.
Qed.

(** *** Saving and restarting *)

Definition no_saved : saved := mk_saved "" (mk_sf "" 0 [] [] []) [] [].
Definition written (s : st) : saved := default no_saved (marshal "i" s).
Lemma saves_written s : is_Some (marshal "i" s) -> saves "i" s (written s).
Proof.
  intros [v Hv]. unfold written. rewrite Hv. exists v, (sv_subs v). split_and!; try done.
  simpl. clear. induction (sv_subs v); constructor; [|done]. by split.
Qed.
Definition reloaded_as (s : st) : loaded :=
  match unmarshal (written s) with Ok l => l | _ => mk_loaded "" (mk_lf "" 0 ∅ ∅ ∅) ∅ 0 [] 0 end.

Definition reloaded_st (E : env) (d : defn) (init : Z) (s : st) : st :=
  default (init_st d "u") (restart E (DOk d) init (reloaded_as s)).2.
Lemma reloaded_check s : (match unmarshal (written s) with Ok _ => true | _ => false end) = true -> unmarshal (written s) = Ok (reloaded_as s).
Proof. unfold reloaded_as. by destruct (unmarshal (written s)). Qed.
Lemma restart_check E d init s :
  (match (restart E (DOk d) init (reloaded_as s)).1 with Ok None => true | _ => false end) = true ->
  restart E (DOk d) init (reloaded_as s) = (Ok None, Some (reloaded_st E d init s)).
Proof.
  unfold reloaded_st. unfold restart. destruct (reopened d (reloaded_as s)); [|done].
  match goal with |- context [match ?x with (_, _) => _ end] => destruct x as [[] s'] end; done.
Qed.
Ltac restarted := split_and!;
  match goal with
  | |- built _ => apply flow_of_built; ev
  | |- visited _ _ _ _ => apply (visited_after _ _ _ _ _)
  | |- saves _ _ _ => apply saves_written; apply is_some_check; ev
  | |- unmarshal _ = Ok _ => apply reloaded_check; ev
  | |- restart _ _ _ _ = (_, _) => apply restart_check; ev
  | |- built_env _ => idtac
  | |- _ => ev
  end.

(** The first of two start tasks of a subflow returns. *)
Definition sub_two : defn := flow_of "sub" [tr "x"; tr "y"] [] None None.
Definition act_ret (n : nat) (v : view) : act :=
  if String.eqb (v_task v) "x" then AReturn (Some ∅) None (AEnd ADone) else sub_act ["a"] n v.
Definition env_ret : env := set_e_def (fun _ _ => DOk sub_two) (env1 act_ret).
Lemma env_ret_built : built_env env_ret.
Proof. intros n uri d [= <-]. apply flow_of_built; ev. Qed.

Lemma reload_panics :
  exists E d uri s js id v v', built d /\ built_env E /\ visited E d uri s /\ saves id s v /\ json_saved js v = Some v' /\
    unmarshal v' = Panic "nil subflow".
Proof.
  exists env_ret, caller, "u", (after env_ret 2 (started env_ret caller "u" ∅)), Some, "i",
    (written (after env_ret 2 (started env_ret caller "u" ∅))), (written (after env_ret 2 (started env_ret caller "u" ∅))).
  split_and!; [apply caller_built|apply env_ret_built|apply visited_after|apply saves_written; apply is_some_check; ev|ev|ev].
Qed.

(** Three tasks that could run at once, the first with two successors. *)
Definition three : defn := flow_of "f" [tr "a"; tr "b"; tr "c"; tr "d"; tr "e"] [ldep "a" "d"; ldep "a" "e"] None None.
Lemma three_built : built three.
Proof. apply flow_of_built; ev. Qed.
Lemma restart_shuffles :
  exists E d uri s js id v v' l s', built d /\ visited E d uri s /\ saves id s v /\ json_saved js v = Some v' /\
    unmarshal v' = Ok l /\ restart E (DOk d) 1 l = (Ok None, Some s') /\
    items s = [(1, "a", 0); (2, "b", 0); (3, "c", 0)]%nat /\ items s' = [(3, "c", 0); (1, "a", 0); (2, "b", 0)]%nat.
Proof.
  set (s := after (env1 act_ok) 0 (started (env1 act_ok) three "u" ∅)).
  exists (env1 act_ok), three, "u", s, Some, "i", (written s), (written s), (reloaded_as s), (reloaded_st (env1 act_ok) three 1 s).
  restarted.
Qed.
Lemma restart_same_ids :
  exists E d uri s js id v v' l s', built d /\ visited E d uri s /\ saves id s v /\ json_saved js v = Some v' /\
    unmarshal v' = Ok l /\ restart E (DOk d) 0 l = (Ok None, Some s') /\
    items (after E 1 s') = [(2, "b", 0); (3, "c", 0); (1, "d", 0); (2, "e", 0)]%nat.
Proof.
  set (s := after (env1 act_ok) 0 (started (env1 act_ok) three "u" ∅)).
  exists (env1 act_ok), three, "u", s, Some, "i", (written s), (written s), (reloaded_as s), (reloaded_st (env1 act_ok) three 0 s).
  restarted.
Qed.

(** The task of the error handler fails too. *)
Definition env_both : env := env1 (act_fail ["a"; "h"]).
Lemma restart_handles_again :
  exists E d uri s js id v v' l s', built d /\ visited E d uri s /\ saves id s v /\ json_saved js v = Some v' /\
    unmarshal v' = Ok l /\ restart E (DOk d) 0 l = (Ok None, Some s') /\ items s' = items s /\
    main_status (after E 1 s) = Some FFailed /\
    main_status (after E 1 s') = Some FActive /\ (fun w => w.1.2) <$> items (after E 1 s') = (fun w => w.1.2) <$> items s.
Proof.
  set (s := after env_both 1 (started env_both handled "u" ∅)).
  exists env_both, handled, "u", s, Some, "i", (written s), (written s), (reloaded_as s), (reloaded_st env_both handled 0 s).
  restarted.
Qed.

(** A live subflow. *)
Lemma restart_panics :
  exists E d uri s js id v v' l, built d /\ built_env E /\ visited E d uri s /\ saves id s v /\ json_saved js v = Some v' /\
    unmarshal v' = Ok l /\ (restart E (DOk d) 1 l).1 = Panic "nil task instance".
Proof.
  set (s := after env_sub 1 (started env_sub caller "u" ∅)).
  exists env_sub, caller, "u", s, Some, "i", (written s), (written s), (reloaded_as s).
  restarted. apply env_sub_built.
Qed.

(** *** Snapshots *)

Lemma dom_check {A} (m : gmap nat A) k : (map_to_list m).*1 = [k] -> dom m = {[ k ]}.
Proof.
  intros H. assert (forall i, i ∈ dom m <-> i ∈ (map_to_list m).*1) as Hd.
  { intros i. rewrite elem_of_dom. rewrite elem_of_list_fmap. split.
    - intros [x Hx]. exists (i, x). split; [done|]. by apply elem_of_map_to_list.
    - intros ([j x] & -> & Hx%elem_of_map_to_list). by exists x. }
  apply set_eq. intros i. by rewrite Hd, H, elem_of_singleton, elem_of_list_singleton.
Qed.

(** Each task sets the attribute n of the flow to its name. *)
Definition act_scope (n : nat) (v : view) : act := AScope "n" (VStr (v_task v)) (AEnd ADone).
Definition env_scope : env := rec_env RMStep (env1 act_scope).
Lemma snapshot_old_values :
  exists E d uri s y, built d /\ acyclic d /\ visited E d uri s /\ (exists r, s_log s = EvStep :: r) /\
    in_order (s_log s) /\ links_reported s /\ s_insts s !! 0%nat = Some y /\ i_attrs y !! "n" = Some (VStr "b") /\ i_tasks y !! "a" = None /\
    forall fo qo, (forall m, fo m ≡ₚ (map_to_list m).*2) ->
      sb_attrs (sn_base (steps_to_snapshot fo qo (recorded false 0 uri s))) !! "n" = Some (VStr "a") /\
      sb_tasks (sn_base (steps_to_snapshot fo qo (recorded false 0 uri s))) !! "a" = Some TDone.
Proof.
  exists env_scope, caller, "u", (at_lap env_scope caller 2).
  assert (exists y, s_insts (at_lap env_scope caller 2) !! 0%nat = Some y /\ (i_attrs y !! "n" = Some (VStr "b") /\ i_tasks y !! "a" = None)) as (y & Hy & H1 & H2).
  { apply (some_check (fun y => i_attrs y !! "n" = Some (VStr "b") /\ i_tasks y !! "a" = None)). ev. }
  exists y. split; [apply caller_built|]. split; [apply (rank_check _ (fun a b => if String.eqb b "a" then 0%nat else 1%nat)); ev|].
  split; [apply at_lap_visited; ev|]. split; [exists (tail (s_log (at_lap env_scope caller 2))); ev|].
  split; [apply in_order_check; ev|]. split; [apply reported_check; ev|]. split; [exact Hy|]. split; [exact H1|]. split; [exact H2|].
  intros fo qo Hfo. destruct (snapshot_of_changes fo qo Hfo (recorded false 0 "u" (at_lap env_scope caller 2))) as (_ & S2 & _ & S4 & _).
  { destruct (visited_reach env_scope caller "u" (at_lap env_scope caller 2)) as [c R]; [apply at_lap_visited; ev|].
    apply (recorded_main_only env_scope caller "u" false _ c R). apply dom_check. ev. }
  rewrite S2, S4. split; ev.
Qed.

Definition env_sub_full : env := rec_env RMFull env_sub.
Lemma env_sub_full_built : built_env env_sub_full.
Proof. intros n uri d [= <-]. apply flow_of_built; ev. Qed.
Lemma snapshot_lacks :
  exists E d uri s sn r, built d /\ built_env E /\ visited E d uri s /\ s_log s = EvStep :: EvSnapshot sn :: r /\
    items s = [(2, "x", 1)]%nat /\ elements (s_subs s) = [1%nat] /\ sn_subs sn = [] /\ sn_queue sn = [] /\
    forall fo qo, sn_subs (steps_to_snapshot fo qo (recorded false 0 uri s)) = [].
Proof.
  exists env_sub_full, caller, "u", (at_lap env_sub_full caller 1).
  exists (match s_log (at_lap env_sub_full caller 1) with _ :: EvSnapshot sn :: _ => sn | _ => mk_snap (mk_sb "" 0 ∅ ∅ ∅) [] [] end).
  exists (tail (tail (s_log (at_lap env_sub_full caller 1)))).
  split_and!; [apply caller_built|apply env_sub_full_built|apply at_lap_visited; ev|ev..|intros fo qo; reflexivity].
Qed.

(** *** Steps *)
Definition env_sub_fails : env := rec_env RMStep (set_e_def (fun _ _ => DOk sub_ok) (env1 (fun n v => if String.eqb (v_task v) "x" then AEnd (AErr (EOther "x")) else sub_act ["a"] n v))).
Lemma two_steps_recorded :
  exists E d uri s, built d /\ built_env E /\ visited E d uri s /\ e_ext E = true /\ e_rec E = Some RMStep /\
    (lap E s).1 = Ok true /\ steps_in (s_log (lap E s).2) = (2 + steps_in (s_log s))%nat.
Proof.
  exists env_sub_fails, caller, "u", (at_lap env_sub_fails caller 1).
  split_and!; [apply caller_built| |apply at_lap_visited; ev|ev..].
  intros n uri d [= <-]. apply flow_of_built; ev.
Qed.
