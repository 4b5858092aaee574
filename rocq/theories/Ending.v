(** Acyclic flows without error handler come to an end whatever fails; whole runs end normally. No Go counterpart (proof infrastructure). *)
From Verif Require Export Panics Entire.
Local Open Scope Z_scope.

Section Ending.
  Local Set Default Proof Using "Type*".
  Context (E : env) (d : defn) (uri : string) (SF : simple_flow d) (OE : orderly E) (EH : no_takeover E d) (SE : sync_env false E) (NE : d_tasks d <> []).
  Definition closed_with (o : option Z) : Prop := o = Some FCompleted \/ o = Some FFailed.
  Notation md := (mk_mode True True).
  Lemma noret : no_return E.
  Proof. intros n v. apply (sync_noret false), SE. Qed.
  Lemma ends_laps F s : running E d uri s -> here d md False F s ->
    (exists n, (n <= count d F)%nat /\ closed_with (main_status (after E n s))) /\
    (exists n, (n <= count d F)%nat /\ closed_with (main_status (laps E n s))).
  Proof.
    destruct SF as (B' & AC & PT & NS). destruct OE as (NC & SO & C & L & NSF). pose proof noret as NR.
    remember (count d F) as c eqn:Hc. revert F s Hc. induction (lt_wf c) as [c _ IH]. intros F s -> R H.
    assert (Hi := H). destruct Hi as (V & y & I & Hf). pose proof (iv_y _ _ _ _ _ _ _ _ _ I) as Hy.
    assert (main_status s = Some (i_status y)) as Hms by (unfold main_status; by rewrite Hy).
    assert (closed_with (main_status s) -> (exists n, (n <= count d F)%nat /\ closed_with (main_status (after E n s))) /\
      (exists n, (n <= count d F)%nat /\ closed_with (main_status (laps E n s)))) as Hnow.
    { intros ?. split; (exists 0%nat; split; [lia|done]). }
    destruct (iv_stat _ _ _ _ _ _ _ _ _ I) as [Ha|Ha]; [|apply Hnow; left; congruence].
    destruct (decide (s_queue s = [])) as [Hq|Hq].
    { apply Hnow. left. rewrite Hms. f_equal. apply Hf; [done|].
      by eapply (idle_closed d md False (built_graph d B') AC NS PT E EH NC SO C L NSF ltac:(done) ltac:(done) ltac:(done) ltac:(done)). }
    assert (main_status (lap E s).2 = main_status (do_step E s).2) as Hlap.
    { unfold main_status. by rewrite (proj1 (lap_same E s)). }
    destruct (step_here d md False (built_graph d B') AC NS PT E EH NC SO C L NSF ltac:(done) ltac:(done) ltac:(done) ltac:(done) uri F s R H) as (_ & H2 & _).
    assert (count d F <> 0)%nat as Hpos.
    { destruct (s_queue s) as [|[w u] q] eqn:Hqe; [done|].
      destruct (iv_queue _ _ _ _ _ _ _ _ _ I w u) as (id & x & Hid & HF & _); [rewrite Hqe; left|].
      destruct (iv_reg _ _ _ _ _ _ _ _ _ I _ _ Hid) as (tk & _ & Htk & <- & _).
      pose proof (count_lt d (built_graph d B') AC NS PT F tk TDone Htk HF). lia. }
    destruct H2 as [(_ & _ & Hcut & _)|(F' & Hs & H2 & Hlt)]; [congruence|done| |].
    - split; (exists 1%nat; split; [lia|right]); [by apply Hcut|]. change (laps E 1 s) with (lap E s).2. rewrite Hlap. by apply Hcut.
    - specialize (Hlt Logic.I). split.
      + destruct (IH (count d F') Hlt F' _ eq_refl (running_step _ _ _ _ R) H2) as [(n & Hn & Hm) _]. exists (S n). split; [lia|done].
      + assert (on d md False E F' (lap E s).2) as Hon.
        { unfold lap. 
          assert (kp d md False E (A:=bool) (bind (if e_ext E then record_state E else ret tt) (fun _ => ret true)) /\
            kp d md False E (A:=bool) (bind (if e_ext E then record_state E else ret tt) (fun _ => ret false))) as [K1 K2].
          { pose proof (built_graph d B') as G.
            assert (md -> sync_env false E) as P1 by done. assert (md -> returns_not md) as P2 by done. assert (returns_not md -> no_return E) as P3 by done.
            assert (False -> forall tk, tk ∈ d_tasks d -> smooth E tk) as P4 by done.
            assert (forall A (a : A), kp d md False E (ret a)) as Kr by (intros A a; eapply kp_ret; eassumption).
            split; (eapply kp_bind; try eassumption; [|intros; apply Kr]); (destruct (e_ext E); [eapply kp_record; eassumption|apply Kr]). }
          unfold bind at 1. destruct (do_step E s) as [[b| | |] s1]; try by left. destruct b; [apply K1|apply K2]; by left. }
        destruct Hon as [H3|(_ & _ & Hcut & _)].
        * destruct (IH (count d F') Hlt F' _ eq_refl (lap_running _ _ _ _ R) H3) as [_ (n & Hn & Hm)]. exists (S n). split; [lia|done].
        * exists 1%nat. split; [lia|]. right. by apply Hcut.
  Qed.
  Lemma flow_closes s : running E d uri s ->
    (exists n, (n <= length (d_tasks d))%nat /\ (main_status (after E n s) = Some FCompleted \/ main_status (after E n s) = Some FFailed)) /\
    (exists n, (n <= length (d_tasks d))%nat /\ (main_status (laps E n s) = Some FCompleted \/ main_status (laps E n s) = Some FFailed)).
  Proof.
    intros R. pose proof noret as NR. pose proof SF as (B' & AC & PT & NS). pose proof OE as (NC & SO & C & L & NSF).
    destruct (running_on d md False (built_graph d B') AC NS PT E EH NC SO C L NSF ltac:(done) ltac:(done) ltac:(done) ltac:(done) uri s R) as [F [H|(_ & _ & H & _)]].
    - assert (count d F <= length (d_tasks d))%nat as Hc by (rewrite <- count_start; apply (count_le d (built_graph d B') AC NS PT ∅ F), map_empty_subseteq).
      destruct (ends_laps F s R H) as [(n & Hn & H1) (k & Hk & H2)]. split; [exists n|exists k]; (split; [lia|done]).
    - split; (exists 0%nat; split; [lia|]; right; by apply H).
  Qed.
  Lemma flow_run_ok ro ins : NoDup (t_id <$> all_tasks d) -> asserts_calm E -> SpecSub.recordable E -> (run_flow E ro d uri ins).1 = Ok tt.
  Proof.
    intros Nd As Rc. pose proof SF as (B' & AC & PT & NS). pose proof OE as (NC & SO & C & L & NSF).
    assert (forall tk, tk ∈ all_tasks d -> t_act tk <> None) as Ha by (intros tk Htk; by destruct (PT tk Htk) as (_ & _ & ?)).
    apply run_ok; try done.
    - intros n u d' He. by destruct (NSF n u d').
    - intros h Hh tk Htk _. apply Ha. unfold all_tasks. rewrite Hh. apply elem_of_app. by right.
    - intros n u d' He. by destruct (NSF n u d').
    - intros n v m. destruct (SO n v) as [m' ->]. done.
    - intros n u d' He. by destruct (NSF n u d').
    - intros tk Htk _. apply Ha. unfold all_tasks. apply elem_of_app. by left.
  Qed.
  Lemma flow_run_closes ro ins : NoDup (t_id <$> all_tasks d) -> asserts_calm E -> SpecSub.recordable E ->
    Z.of_nat (length (d_tasks d)) < ro_max ro - first_count ro ->
    (run_flow E ro d uri ins).1 = Ok tt /\
    (main_status (run_flow E ro d uri ins).2 = Some FCompleted \/ main_status (run_flow E ro d uri ins).2 = Some FFailed) /\
    (failures_handled E d -> main_status (run_flow E ro d uri ins).2 = Some FCompleted).
  Proof.
    intros Nd As Rc Hlt. pose proof (flow_run_ok ro ins Nd As Rc) as Hok. split; [done|]. split.
    2:{ intros FH. by apply flow_run_completes. }
    assert ((run_begin E ro ins (init_st d uri)).1 = Ok tt) as Hb.
    { destruct (out_ok (run_begin E ro ins (init_st d uri)).1) as [H|H]; [done|]. destruct (run_flow_early _ _ _ _ _ H) as [_ Ho]. congruence. }
    destruct (flow_closes _ (running_prepare _ _ _ ro ins Hb)) as [_ (n & Hn & Hm)].
    assert (exists y, s_insts (laps E n (run_begin E ro ins (init_st d uri)).2) !! 0%nat = Some y /\ (i_status y = FCompleted \/ i_status y = FFailed)) as (y & Hy & Hz).
    { unfold main_status in Hm. destruct (s_insts (laps E n _) !! 0%nat) as [y|]; [|by destruct Hm]. exists y. split; [done|]. destruct Hm as [[= H]|[= H]]; auto. }
    destruct (run_ends E ro d uri ins n y Hok Hy) as (m & r & _ & _ & _ & ->); [by destruct Hz as [-> | ->]|lia|]. destruct Hz as [-> | ->]; auto.
  Qed.
End Ending.
