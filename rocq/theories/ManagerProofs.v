(** Proofs about the flow manager and the recording modes (no Go counterpart). *)
From Verif Require Export Manager Spec.
Local Open Scope Z_scope.

(** ** The flow manager *)

Lemma get_flows_app prov b us vs m :
  get_flows prov b (us ++ vs) m =
  ((get_flows prov b us m).1 ++ (get_flows prov b vs (get_flows prov b us m).2).1, (get_flows prov b vs (get_flows prov b us m).2).2).
Proof.
  revert m. induction us as [|u us IH]; intros m; cbn [app get_flows fst snd]; [by destruct (get_flows _ _ _ _)|].
  rewrite IH. cbn [fst snd]. done.
Qed.

(** The manager after some history. *)
Record manages (h : list (string * (err + defn) * nat)) (m : manager) : Prop := {
  ms_flows : forall u, mg_flows m !! u = first_success u h;
  ms_asked : mg_asked m = asked_in h
}.

Lemma first_success_app u h1 h2 : first_success u (h1 ++ h2) =
  match first_success u h1 with Some d => Some d | None => first_success u h2 end.
Proof. induction h1 as [|[[v a] k] h IH]; [done|]. cbn. destruct a; [done|]. by destruct (String.eqb v u). Qed.
Lemma asked_app h1 h2 : asked_in (h1 ++ h2) = (asked_in h1 + asked_in h2)%nat.
Proof. induction h1 as [|[[v a] k] h IH]; [done|]. cbn [app asked_in foldr]. fold (asked_in (h ++ h2)) (asked_in h). lia. Qed.

Lemma manages_all prov b us : manages (get_flows prov b us new_flow_manager).1 (get_flows prov b us new_flow_manager).2.
Proof.
  induction us as [|u us IH] using rev_ind; [by constructor|]. rewrite get_flows_app.
  destruct (get_flows prov b us new_flow_manager) as [h m]. cbn [fst snd get_flows] in *. destruct IH as [H1 H2].
  unfold get_flow. destruct (mg_flows m !! u) as [d|] eqn:Hu.
  - constructor; cbn.
    + intros v. rewrite first_success_app, <- H1. destruct (mg_flows m !! v) eqn:Hv; [done|]. cbn.
      destruct (String.eqb_spec u v) as [->|]; [congruence|done].
    + rewrite asked_app. cbn. lia.
  - destruct (prov (mg_asked m) u) as [e|r]; [|destruct (materialize_flow b r) as [e|d]].
    + constructor; cbn [mg_flows mg_asked fst snd]; [|rewrite asked_app; cbn; lia]. intros v. rewrite first_success_app, <- H1. by destruct (mg_flows m !! v) eqn:Hv; rewrite ?Hv.
    + constructor; cbn [mg_flows mg_asked fst snd]; [|rewrite asked_app; cbn; lia]. intros v. rewrite first_success_app, <- H1. by destruct (mg_flows m !! v) eqn:Hv; rewrite ?Hv.
    + constructor; cbn [mg_flows mg_asked fst snd]; [|rewrite asked_app; cbn; lia]. intros v. rewrite first_success_app, <- H1.
      cbn [first_success]. destruct (String.eqb_spec u v) as [->|]; [by rewrite lookup_insert, Hu|]. rewrite lookup_insert_ne by done. by destruct (mg_flows m !! v) eqn:Hv; rewrite ?Hv.
Qed.

Lemma get_flows_split prov b us m h1 x h2 : (get_flows prov b us m).1 = h1 ++ x :: h2 ->
  exists us1 u us2, us = us1 ++ u :: us2 /\ (get_flows prov b us1 m).1 = h1 /\
    x = (u, (get_flow prov b u (get_flows prov b us1 m).2).1,
         mg_asked (get_flow prov b u (get_flows prov b us1 m).2).2 - mg_asked (get_flows prov b us1 m).2)%nat.
Proof.
  revert m h1. induction us as [|u us IH]; intros m h1; cbn [get_flows fst]; [by destruct h1|].
  destruct h1 as [|y h1]; cbn [app]; intros [= H1 H2].
  - exists [], u, us. split_and!; done.
  - destruct (IH _ _ H2) as (us1 & v & us2 & -> & A1 & A2). exists (u :: us1), v, us2. split; [done|]. cbn [get_flows fst snd]. by rewrite A1, H1.
Qed.

Lemma history prov b us h1 u a k h2 :
  (get_flows prov b us new_flow_manager).1 = h1 ++ (u, a, k) :: h2 ->
  match first_success u h1 with
  | Some d => k = 0%nat /\ a = inr d
  | None => k = 1%nat /\ a = match prov (asked_in h1) u with
                        | inl e => inl e
                        | inr r => match new_definition b r with BOk d => inr d | BErr m => inl (EOther m) end
                        end
  end.
Proof.
  intros H. destruct (get_flows_split _ _ _ _ _ _ _ H) as (us1 & v & us2 & -> & Hh & [= <- -> ->]).
  destruct (manages_all prov b us1) as [M1 M2]. rewrite Hh in M1, M2. clear H.
  set (m := (get_flows prov b us1 new_flow_manager).2) in *. rewrite <- M1. unfold get_flow.
  destruct (mg_flows m !! u) as [d|]; [cbn; split; [lia|done]|]. rewrite <- M2. unfold materialize_flow.
  destruct (prov (mg_asked m) u) as [e|r]; [cbn; split; [lia|done]|]. destruct (new_definition b r) as [d|e]; cbn; (split; [lia|done]).
Qed.

Lemma resource_lookup res prov b uri m : String.prefix "res://" uri = true -> (get_definition res prov b uri m).2 = m.
Proof. intros H. unfold get_definition. by rewrite H. Qed.

(** ** Recording modes *)

Lemma lower_same c c' : lower_char c = lower_char c' <-> same_letter c c'.
Proof.
  rewrite <- (ascii_nat_embedding c), <- (ascii_nat_embedding c').
  pose proof (nat_ascii_bounded c) as B. pose proof (nat_ascii_bounded c') as B'. revert B B'.
  generalize (nat_of_ascii c) as n, (nat_of_ascii c') as n'. intros n n' B B'. unfold lower_char, same_letter, letter_up.
  rewrite !nat_ascii_embedding by lia.
  assert (forall a b, (a < 256)%nat -> (b < 256)%nat -> ascii_of_nat a = ascii_of_nat b <-> a = b) as Inj.
  { intros a b Ha Hb. split; [|by intros ->]. intros H. by rewrite <- (nat_ascii_embedding a Ha), <- (nat_ascii_embedding b Hb), H. }
  destruct (Nat.leb_spec 65 n), (Nat.leb_spec n 90), (Nat.leb_spec 65 n'), (Nat.leb_spec n' 90); cbn [andb]; rewrite !Inj by lia; lia.
Qed.
Lemma to_lower_same s s' : to_lower s = to_lower s' <-> same_ignoring_case s s'.
Proof.
  revert s'. induction s as [|c s IH]; intros [|c' s']; cbn [to_lower same_ignoring_case]; try done.
  rewrite <- lower_same, <- IH. split; [intros [= -> ->]; done|intros [-> ->]; done].
Qed.
Lemma name_lower m : to_lower (mode_name m) = mode_name m.
Proof. by destruct m. Qed.
Lemma mode_name_inj m m' : mode_name m = mode_name m' -> m = m'.
Proof. by destruct m, m'. Qed.

Lemma recording_mode_name s m : to_recording_mode s = (m, None) <-> same_ignoring_case s (mode_name m).
Proof.
  rewrite <- to_lower_same, name_lower. unfold to_recording_mode.
  destruct (String.eqb_spec (to_lower s) "debugger") as [->|]; [split; [by intros [= <-]|]; intros H; by apply (mode_name_inj RMDebugger) in H as <-|].
  destruct (String.eqb_spec (to_lower s) "off") as [->|]; [split; [by intros [= <-]|]; intros H; by apply (mode_name_inj RMOff) in H as <-|].
  destruct (String.eqb_spec (to_lower s) "full") as [->|]; [split; [by intros [= <-]|]; intros H; by apply (mode_name_inj RMFull) in H as <-|].
  destruct (String.eqb_spec (to_lower s) "snapshot") as [->|]; [split; [by intros [= <-]|]; intros H; by apply (mode_name_inj RMSnapshot) in H as <-|].
  destruct (String.eqb_spec (to_lower s) "step") as [->|]; [split; [by intros [= <-]|]; intros H; by apply (mode_name_inj RMStep) in H as <-|].
  split; [done|]. destruct m; done.
Qed.
Lemma recording_mode_other s : (forall m, ~ same_ignoring_case s (mode_name m)) ->
  (to_recording_mode s).1 = RMOff /\ is_Some (to_recording_mode s).2.
Proof.
  intros H. destruct (to_recording_mode s) as [m [e|]] eqn:E; [|by apply recording_mode_name, H in E].
  split; [|done]. cbn. revert E. unfold to_recording_mode. repeat (destruct (String.eqb _ _); [done|]). by intros [= <- _].
Qed.
Lemma record_steps_spec m : record_steps m = true <-> m = RMStep \/ m = RMFull \/ m = RMDebugger.
Proof. destruct m; cbn; naive_solver. Qed.
Lemma record_snapshot_spec m : record_snapshot m = true <-> m = RMSnapshot \/ m = RMFull.
Proof. destruct m; cbn; naive_solver. Qed.

Lemma initialize_older svc sm pm :
  let r := initialize svc (Some (None, sm, pm)) in
  ir_ready r = true /\
  (record_steps (ir_mode r) = true <-> same_ignoring_case sm "full") /\
  (record_snapshot (ir_mode r) = true <-> same_ignoring_case pm "full") /\
  (ir_tracking r = true <-> svc = true /\ same_ignoring_case sm "full").
Proof.
  cbv zeta. rewrite <- !to_lower_same. unfold initialize.
  destruct (String.eqb_spec (to_lower "full") (to_lower sm)) as [<-|H1], (String.eqb_spec (to_lower "full") (to_lower pm)) as [<-|H2], svc; cbn;
    split_and!; try done; try (split; [done|by intros ->]); try (split; [done|by intros [_ <-]]); try (split; [done|by intros [? _]]);
    try (split; [done|intros <-; done]); naive_solver.
Qed.
Lemma initialize_named svc s sm pm m : same_ignoring_case s (mode_name m) ->
  initialize svc (Some (Some s, sm, pm)) = mk_ir m true (svc && record_steps m).
Proof. intros H%recording_mode_name. cbn. by rewrite H. Qed.
