(** What one evaluation of a task does: which calls of its activity it makes and how its result
    depends on them. No Go counterpart (proofs). *)
From Verif Require Export Around.
Local Open Scope Z_scope.

(** The calls of activities, their ends and the loop conditions, in order. *)
Definition is_mark (e : event) : bool :=
  match e with EvAct _ _ _ _ | EvActEnd _ _ _ | EvCond _ _ _ _ => true | _ => false end.
Definition marks (l : list event) : list event := List.filter is_mark l.
Definition silent (e : event) : Prop := is_mark e = false.

Lemma marks_app a b : marks (a ++ b) = marks a ++ marks b.
Proof. apply List.filter_app. Qed.
Lemma marks_silent l : Forall silent l -> marks l = [].
Proof. induction 1 as [|e l He _ IH]; [done|]. cbn. by rewrite He. Qed.
Lemma marks_rev_silent l : Forall silent l -> marks (rev l) = [].
Proof. intros F. apply marks_silent. rewrite Forall_forall in *. intros e He. apply F. by apply in_rev_elem. Qed.

Section Acts.
  Local Set Default Proof Using "Type*".
  Context (E : env) (t i : nat) (tk : task).
  Notation id := (t_id tk).

  Definition good (s : st) : Prop := (ti_is s t i tk /\ okq s) /\ is_Some (s_insts s !! i).
  Definition wd_of (s : st) : option (gmap string wval) := ti_wd <$> s_tis s !! t.

  Definition iter_of (s : st) : option wval := match wd_of s with Some w => w !! "iteration" | None => None end.

  (** A change without calls that leaves the working data alone. *)
  Definition still (s s' : st) : Prop := quiet E t i tk s s' /\ logs silent s s' /\ wd_of s' = wd_of s.

  Lemma still_refl s : still s s.
  Proof. split_and!; [apply quiet_refl|apply logs_refl|done]. Qed.
  Lemma still_trans a b c : still a b -> still b c -> still a c.
  Proof. intros (A1 & A2 & A3) (B1 & B2 & B3). split_and!; [by eapply quiet_trans|by eapply logs_trans|congruence]. Qed.
  Lemma still_same s s' : s_log s' = s_log s -> wd_of s' = wd_of s -> quiet E t i tk s s' -> still s s'.
  Proof. intros Hl Hw Hq. split_and!; [done| |done]. exists []. split; [done|constructor]. Qed.

  Lemma still0 : leaves0 E t i tk still.
  Proof.
    pose proof (lv0 _ _ _ _ _ (quiet_leaves E t i tk)) as Q. constructor.
    - apply still_refl.
    - apply still_trans.
    - intros s H. apply still_same; [done..|by apply (lv_tick _ _ _ _ _ Q)].
    - intros e s H He. split_and!; [by apply (lv_log _ _ _ _ _ Q)| |done]. apply logs_log. by destruct e.
    - intros m s H Hi Hm. split_and!; [by apply (lv_set _ _ _ _ _ Q)| |done]. by apply (logs_one silent (EvSet i m (e_track E))).
    - intros f s H Hf Hw. apply still_same; [done| |by apply (lv_ti _ _ _ _ _ Q)].
      unfold wd_of. cbn. rewrite lookup_alter. destruct (s_tis s !! t) as [x|]; [|done]. cbn. by rewrite Hw.
  Qed.
  Lemma stillA : leavesA E t i tk still.
  Proof.
    pose proof (lvA _ _ _ _ _ (quiet_leaves E t i tk)) as Q. constructor. intros v s H Hi.
    split_and!; [by apply (lv_acc _ _ _ _ _ Q)| |done]. by apply (logs_one silent (EvSet i {[ "_A." +:+ t_id tk := v ]} (e_track E))).
  Qed.
  Lemma around_silent e : around_ev e -> silent e.
  Proof. intros [He|(j & z & ->)]; [by destruct e|done]. Qed.
  Lemma still1 : leaves1 E t i tk still.
  Proof.
    pose proof (lv1 _ _ _ _ _ (quiet_leaves E t i tk)) as Q. constructor.
    - intros d e s H. pose proof (lv_reply _ _ _ _ _ Q d e s H) as Hq. revert Hq.
      unfold reply, bind, get_inst, bind, get. destruct (s_insts s !! i) as [y|]; [|intros; apply still_refl]. unfold ret at 1 3.
      destruct (i_handler y); [|intros; apply still_refl]. intros Hq. split_and!; [done| |done]. by apply (logs_one silent (EvResult d e)).
    - intros d e s H. pose proof (lv_return _ _ _ _ _ Q d e s H) as Hq. split_and!; [done| |done]. by apply (logs_one silent (EvReturn i d e)).
    - intros uri ins s H Hg. split; [|by apply (lv_sub _ _ _ _ _ Q)]. destruct H as [H Ho].
      destruct (quiet_sub_own E t i tk uri ins s Ho H) as (Hq & Ht & _). split_and!; [done| |by unfold wd_of; rewrite Ht].
      apply (lg_start_subflow E silent around_silent). done.
    - intros n v s H Hi Hn. split_and!; [by apply (lv_scope _ _ _ _ _ Q)| |done]. by apply (logs_one silent (EvSet i {[ n := v ]} (e_track E))).
  Qed.

  Lemma good_still s s' : good s -> still s s' -> good s'.
  Proof.
    intros [[H Ho] [y Hy]] [Hq _]. destruct (Hq Ho) as (Ho' & _ & _ & I & _). split.
    - split; [exact (ti_is_quiet E t i tk s s' Ho H Hq)|done].
    - destruct (I i y Hy) as (y' & Hy' & _). eauto.
  Qed.

  (** ** A logic for evaluations *)
  Definition tr {A} (m : M A) (s : st) (Q : out A -> st -> list event -> Prop) : Prop :=
    good s -> good (m s).2 /\ exists l, s_log (m s).2 = l ++ s_log s /\ Q (m s).1 (m s).2 (marks (rev l)).

  Lemma tr_mono {A} (m : M A) s (Q Q' : out A -> st -> list event -> Prop) :
    tr m s Q -> (forall o s' l, Q o s' l -> Q' o s' l) -> tr m s Q'.
  Proof. intros H HQ G. destruct (H G) as (G' & l & Hl & H'). eauto. Qed.
  Lemma tr_ret {A} (a : A) s (Q : out A -> st -> list event -> Prop) : Q (Ok a) s [] -> tr (ret a) s Q.
  Proof. intros HQ G. split; [done|]. exists []. done. Qed.
  Lemma tr_panic {A} msg s (Q : out A -> st -> list event -> Prop) : Q (Panic msg) s [] -> tr (panic msg) s Q.
  Proof. intros HQ G. split; [done|]. exists []. done. Qed.
  Lemma tr_bind {A B} (m : M A) (k : A -> M B) s (Q : out B -> st -> list event -> Prop) :
    tr m s (fun o s1 l1 => match o with
      | Ok a => tr (k a) s1 (fun o2 s2 l2 => Q o2 s2 (l1 ++ l2))
      | Panic e => Q (Panic e) s1 l1
      | Fuel => Q Fuel s1 l1
      | Blocked => Q Blocked s1 l1
      end) -> tr (bind m k) s Q.
  Proof.
    intros H G. destruct (H G) as (G1 & l1 & H1 & H'). unfold bind. destruct (m s) as [[a|e| |] s1]; cbn [fst snd] in *; [|eauto..].
    destruct (H' G1) as (G2 & l2 & H2 & HQ). split; [done|]. exists (l2 ++ l1). rewrite rev_app_distr, marks_app.
    split; [|done]. by rewrite H2, H1, app_assoc.
  Qed.
  Lemma tr_catch {A} (m : M A) h s (Q : out A -> st -> list event -> Prop) :
    tr m s (fun o s1 l1 => match o with
      | Panic e => tr (h e) s1 (fun o2 s2 l2 => Q o2 s2 (l1 ++ l2))
      | _ => Q o s1 l1
      end) -> tr (catch m h) s Q.
  Proof.
    intros H G. destruct (H G) as (G1 & l1 & H1 & H'). unfold catch. destruct (m s) as [[a|e| |] s1]; cbn [fst snd] in *; [eauto| |eauto..].
    destruct (H' G1) as (G2 & l2 & H2 & HQ). split; [done|]. exists (l2 ++ l1). rewrite rev_app_distr, marks_app.
    split; [|done]. by rewrite H2, H1, app_assoc.
  Qed.
  Lemma tr_get_ti {B} (k : tinst -> M B) s Q :
    (forall x, s_tis s !! t = Some x -> ti_inst x = i -> ti_task x = tk -> tr (k x) s Q) -> tr (bind (get_ti t) k) s Q.
  Proof.
    intros H G. assert (G' := G). destruct G' as [[(x & Hx & Hi & Ht) _] _]. unfold bind, get_ti, bind, get. rewrite Hx.
    by apply (H x Hx Hi Ht).
  Qed.
  Lemma tr_get_inst {B} (k : inst -> M B) s Q :
    (forall y, s_insts s !! i = Some y -> tr (k y) s Q) -> tr (bind (get_inst i) k) s Q.
  Proof.
    intros H G. assert (G' := G). destruct G' as [_ [y Hy]]. unfold bind, get_inst, bind, get. rewrite Hy.
    by apply (H y Hy).
  Qed.
  Lemma tr_log e s (Q : out unit -> st -> list event -> Prop) : Q (Ok tt) (p_log e s) (marks [e]) -> tr (log_ev e) s Q.
  Proof. intros HQ G. split; [done|]. exists [e]. done. Qed.
  Lemma tr_ext {A} (f : nat -> view -> A) s (Q : out A -> st -> list event -> Prop) :
    (forall s', s' = set_s_tick (S (s_tick s)) s -> Q (Ok (f (s_tick s) (view_of s' t))) s' []) -> tr (ext t f) s Q.
  Proof. intros HQ G. split; [done|]. exists []. split; [done|]. by apply HQ. Qed.

  Lemma tr_good {A} (m : M A) s Q : (good s -> tr m s Q) -> tr m s Q.
  Proof. intros H G. by apply H. Qed.
  (** Functions without calls. *)
  Lemma tr_still {A} (m : M A) s (Q : out A -> st -> list event -> Prop) :
    rq t i tk still m -> (forall o s', still s s' -> m s = (o, s') -> Q o s' []) -> tr m s Q.
  Proof.
    intros H HQ G. assert (still s (m s).2) as S1 by apply H, G. split; [by eapply good_still|].
    assert (S1' := S1). destruct S1' as (_ & (l & Hl & F) & _). exists l. split; [done|]. rewrite marks_rev_silent by done.
    apply HQ; [done|]. by destruct (m s).
  Qed.
  Lemma tr_guard {A} m (k : M (err + A)) s (Q : out (err + A) -> st -> list event -> Prop) :
    rq t i tk still m ->
    (forall o s', still s s' -> m s = (o, s') -> match o with
       | Ok (Some e) => Q (Ok (inl e)) s' []
       | Ok None => tr k s' Q
       | Panic e => Q (Panic e) s' [] | Fuel => Q Fuel s' [] | Blocked => Q Blocked s' []
       end) -> tr (guard_err m k) s Q.
  Proof.
    intros H HQ. apply tr_bind, tr_still; [done|]. intros o s' S1 E1. specialize (HQ o s' S1 E1).
    destruct o as [[e|]|e| |]; [by apply tr_ret| |done..]. eapply tr_mono; [exact HQ|]. done.
  Qed.

  Lemma still_run_act a : (forall n, act_scope n a -> scoped E n) -> (forall n, act_gives n a -> gives E n) -> rq t i tk still (run_act E t a).
  Proof. apply rq_run_act; [apply still0|apply still1]. Qed.

  (** The result of an evaluation of the activity, given its calls. *)
  Definition called (s : st) (r : err + bool) (m : list event) : Prop :=
    exists ins out, m = [EvAct i id ins (iter_of s); EvActEnd i id out] /\
      match out with Some e => r = inl e | None => exists b, r = inr b end.


  Lemma call_marks s : tr (call_activity E t) s (fun o s' l => wd_of s' = wd_of s /\
    match o with
    | Ok r => called s r l
    | Panic m => called s (inl (EEval (t_name tk) "unhandled" m)) l
    | _ => True
    end).
  Proof.
    unfold call_activity. apply tr_get_ti. intros x Hx Hi Ht. rewrite Hi, Ht.
    assert (iter_of s = ti_wd x !! "iteration") as Hit by (unfold iter_of, wd_of; by rewrite Hx).
    apply tr_bind, tr_log. apply tr_bind, tr_ext. intros s1 Hs1. apply tr_bind.
    apply tr_catch, tr_still; [apply still_run_act; intros n Hn; eexists _, _; by left|]. intros o s2 S2 _.
    assert (wd_of s2 = wd_of s) as W2 by (destruct S2 as (_ & _ & ->); by subst s1).
    assert (forall (r : act_end), tr match r with
      | ADone => log_ev (EvActEnd i id None) ;; set_exec_status E t 1 ;; ret (inr true)
      | AWait => log_ev (EvActEnd i id None) ;; set_exec_status E t 1 ;; ret (inr false)
      | APanic m => log_ev (EvActEnd i id (Some (EEval (t_name tk) "unhandled" m))) ;; panic m
      | AErr e0 =>
          let e := name_err (t_name tk) e0 in
          log_ev (EvActEnd i id (Some e)) ;;
          set_exec_status E t 2 ;;
          y <- get_inst i;
          (if i_handling y then ret tt else set_value E i "_E" (error_obj id e)) ;;
          set_value E i ("_E." +:+ id) (error_obj id e) ;;
          catch (apply_asserts E t 2 ;; ret tt) (fun _ => ret tt) ;;
          ret (inl e)
      end s2 (fun o s' l => wd_of s' = wd_of s /\ exists out, l = [EvActEnd i id out] /\
        match o with
        | Ok r => match out with Some e => r = inl e | None => exists b, r = inr b end
        | Panic m => out = Some (EEval (t_name tk) "unhandled" m)
        | _ => True end)) as Hk.
    { clear o S2. intros r. assert (forall z s, tr (set_exec_status E t z) s (fun o s' l => l = [] /\ still s s' /\ o = Ok tt)) as Hes.
      { clear. intros z s G. assert (still s (set_exec_status E t z s).2) as S1 by (by apply (rq_exec_status _ _ _ _ _ still0), G).
        split; [by eapply good_still|]. assert (S1' := S1). destruct S1' as (_ & (l & Hl & F) & _). exists l. split; [done|].
        split_and!; [by apply marks_rev_silent|done|]. destruct G as [[(x & Hx & Hi & Ht) _] [y Hy]].
        unfold set_exec_status, icpt_id, bind, get_ti, get_inst, bind, get. rewrite Hx. unfold ret at 1. rewrite Hi, Hy. unfold ret.
        cbv beta iota. match goal with |- context [task_icpt E ?n] => by destruct (task_icpt E n) end. }
      destruct r as [| |e0|m].
      - apply tr_bind, tr_log, tr_bind. eapply tr_mono; [apply Hes|]. intros o s3 l (-> & S3 & ->). apply tr_ret.
        split; [destruct S3 as (_ & _ & ->); done|]. exists None. eauto.
      - apply tr_bind, tr_log, tr_bind. eapply tr_mono; [apply Hes|]. intros o s3 l (-> & S3 & ->). apply tr_ret.
        split; [destruct S3 as (_ & _ & ->); done|]. exists None. eauto.
      - cbv zeta. apply tr_bind, tr_log, tr_bind. eapply tr_mono; [apply Hes|]. intros o s3 l (-> & S3 & ->).
        apply tr_get_inst. intros y Hy. apply tr_bind.
        assert (wd_of s3 = wd_of s) as W3 by (destruct S3 as (_ & _ & ->); done).
        assert (forall s n v, n = "_E" \/ n = "_E." +:+ id -> tr (set_value E i n v) s (fun o s' l => l = [] /\ still s s' /\ o = Ok tt)) as Hsv.
        { clear. intros s n v Hn G. assert (still s (set_value E i n v s).2) as S1.
          { apply (rq_set_value _ _ _ _ _ still0); [|apply G]. destruct Hn; auto. }
          split; [by eapply good_still|]. assert (S1' := S1). destruct S1' as (_ & (l & Hl & F) & _). exists l. split; [done|].
          split_and!; [by apply marks_rev_silent|done|]. destruct G as [_ [y Hy]].
          unfold set_value, set_values, set_attrs, bind, get_inst, bind, get. by rewrite Hy. }
        assert (tr (if i_handling y then ret tt else set_value E i "_E" (error_obj id (name_err (t_name tk) e0))) s3
          (fun o s' l => l = [] /\ still s3 s' /\ o = Ok tt)) as H4.
        { destruct (i_handling y); [apply tr_ret; split_and!; [done|apply still_refl|done]|apply Hsv; by left]. }
        eapply tr_mono; [exact H4|]. intros o s4 l (-> & S4 & ->). apply tr_bind.
        eapply tr_mono; [apply Hsv; by right|]. intros o s5 l (-> & S5 & ->). apply tr_bind, tr_catch, tr_bind, tr_still.
        { apply (rq_asserts _ _ _ _ _ still0). }
        intros o s6 S6 _.
        assert (wd_of s6 = wd_of s) as W6.
        { destruct S6 as (_ & _ & ->), S5 as (_ & _ & ->), S4 as (_ & _ & ->). done. }
        destruct o as [[ea|]|e| |].
        + apply tr_ret, tr_ret. split; [done|]. exists (Some (name_err (t_name tk) e0)). done.
        + apply tr_ret, tr_ret. split; [done|]. exists (Some (name_err (t_name tk) e0)). done.
        + apply tr_ret, tr_ret. split; [done|]. exists (Some (name_err (t_name tk) e0)). done.
        + split; [done|]. exists (Some (name_err (t_name tk) e0)). done.
        + split; [done|]. exists (Some (name_err (t_name tk) e0)). done.
      - apply tr_bind, tr_log, tr_panic. split; [done|]. exists (Some (EEval (t_name tk) "unhandled" m)). done. }
    destruct o as [r|m| |].
    - eapply tr_mono; [apply (Hk r)|]. intros o s3 l (W3 & out & -> & Ho). split; [done|]. unfold called. cbn.
      rewrite Hit. destruct o as [r'|m| |]; [|..|done|done]; exists (ti_in x), out; (split; [done|]); [done|]. by rewrite Ho.
    - apply tr_ret. eapply tr_mono; [apply (Hk (APanic m))|]. intros o s3 l (W3 & out & -> & Ho). split; [done|]. unfold called. cbn.
      rewrite Hit. destruct o as [r'|m'| |]; [|..|done|done]; exists (ti_in x), out; (split; [done|]); [done|]. by rewrite Ho.
    - done.
    - done.
  Qed.

  Notation smooth := (smooth E tk).

  Lemma still_finish : rq t i tk still (finish_activity E t).
  Proof. apply (rq_finish _ _ _ _ _ still0 stillA). Qed.
  Lemma finish_smooth s o s' : smooth -> good s -> finish_activity E t s = (o, s') -> o = Ok (inr true).
  Proof.
    intros ((M1 & M2 & M3) & Hic & Hact & Hacc0) G.
    assert (accumulates tk = false) as Hacc by (unfold accumulates; destruct (t_loop tk); [by apply Hacc0|done]).
    unfold finish_activity, bind at 1.
    destruct G as [[(x & Hx & Hi & Ht) Ho] [y Hy]]. unfold get_ti, bind at 1, get. rewrite Hx. unfold ret at 1. rewrite Ht, Hacc.
    unfold guard_err, bind at 1, ext, bind at 1, tick, bind at 1, get, bind at 1, modify, ret at 1, bind at 1. rewrite M3. unfold ret at 1.
    assert (forall (k : option err -> M (err + bool)) s, s_tis s !! t = Some x -> s_insts s !! i = Some y ->
      bind (apply_output_icpt E t) k s = k None s) as H1.
    { intros k s0 Hx0 Hy0. unfold apply_output_icpt, icpt_id, bind, get_ti, get_inst, bind, get. rewrite Hx0. unfold ret at 1. rewrite Hi, Hy0.
      unfold ret at 1, task_icpt. rewrite Hic. done. }
    rewrite H1 by done. unfold bind at 1, bind at 1.
    unfold apply_output_mapper, bind at 1, get_ti, bind at 1, get. cbn [s_tis set_s_tick]. rewrite Hx. unfold ret at 1. rewrite Ht, Hi.
    destruct (t_act tk) as [ac|]; [|done]. unfold set_values, set_attrs, bind at 1, get_inst, bind at 1, get. cbn [s_insts set_s_tick]. rewrite Hy.
    unfold ret at 1, bind at 1, upd_inst, modify, log_ev, modify, ret at 1.
    unfold apply_asserts, bind at 1, icpt_id, bind at 1, get_ti, bind at 1, get, bind at 1. cbn [s_tis set_s_tick set_s_insts set_s_log]. rewrite Hx.
    unfold ret at 1, bind at 1, get_inst, bind at 1, get. cbn [s_insts s_tis set_s_tick set_s_insts set_s_log]. rewrite Hi, lookup_alter, Hy. cbn [fmap option_fmap option_map].
    unfold ret at 1, ret at 1, task_icpt. rewrite Hic. unfold ret. by intros [= <- _].
  Qed.

  Lemma eval_marks s : tr (eval_activity E t) s (fun o s' l => wd_of s' = wd_of s /\
    match o with
    | Ok r => (l = [] \/ (exists ins, l = [EvAct i id ins (iter_of s); EvActEnd i id None]) \/ called s r l) /\
              (smooth -> called s r l)
    | Panic _ => False
    | _ => True
    end).
  Proof.
    unfold eval_activity, recover_eval.
    set (G := fun s0 (o : out (err + bool)) s' l => wd_of s' = wd_of s0 /\
      match o with
      | Ok r => (l = [] \/ (exists ins, l = [EvAct i id ins (iter_of s0); EvActEnd i id None]) \/ called s0 r l) /\ (smooth -> called s0 r l)
      | Panic m => (l = [] \/ (exists ins, l = [EvAct i id ins (iter_of s0); EvActEnd i id None]) \/ called s0 (inl (EEval (t_name tk) "unhandled" m)) l) /\
          (smooth -> called s0 (inl (EEval (t_name tk) "unhandled" m)) l)
      | _ => True end).
    cut (forall m, tr m s (G s) -> tr (catch m (fun msg => x <- get_ti t; ret (inl (EEval (t_name (ti_task x)) "unhandled" msg)))) s
      (fun o s' l => wd_of s' = wd_of s /\ match o with
        | Ok r => (l = [] \/ (exists ins, l = [EvAct i id ins (iter_of s); EvActEnd i id None]) \/ called s r l) /\ (smooth -> called s r l)
        | Panic _ => False | _ => True end)).
    { intros Hc. apply Hc. clear Hc. apply tr_get_ti. intros x Hx Hi Ht. rewrite Ht.
      assert (forall s', still s s' -> forall o s2 l, G s' o s2 l -> G s o s2 l) as Hst.
      { intros s' (_ & _ & Hw) o s2 l. unfold G, called, iter_of. by rewrite Hw. }
      assert (forall s', still s s' -> forall e, (smooth -> False) -> G s (Ok (inl e)) s' []) as Herr.
      { intros s' (_ & _ & Hw) e Hns. split; [done|]. split; [by left|]. intros; by destruct Hns. }
      assert (forall s' o, still s s' -> (smooth -> False) -> G s o s' []) as Hany.
      { intros s' o (_ & _ & Hw) Hns. split; [done|]. destruct o; try done; (split; [by left|]); intros; by destruct Hns. }
      destruct (t_act tk) as [ac|] eqn:Hac.
      2:{ apply tr_panic, Hany; [apply still_refl|]. intros (_ & _ & ? & _). done. }
      assert (forall s', still s s' -> (smooth -> False) -> tr (finish_activity E t) s' (G s)) as Hfin.
      { intros s' S1 Hns. apply tr_still; [apply still_finish|]. intros o s2 S2 _. apply Hany; [|done]. by eapply still_trans. }
      apply tr_guard.
      { destruct (ac_inmap ac); [|apply (rq_ret _ _ _ _ _ still0)]. apply (rq_bind _ _ _ _ _ still0); [apply (rq_input_mapper _ _ _ _ _ still0)|].
        intros. apply (rq_ret _ _ _ _ _ still0). }
      intros o s1 S1 E1.
      assert (smooth -> o = Ok None) as Hsm1.
      { intros ((M1 & _) & _). destruct (ac_inmap ac); [|by injection E1 as <- <-]. revert E1.
        unfold bind at 1, apply_input_mapper, bind at 1, ext, bind at 1, tick, bind at 1, get, bind at 1, modify, ret at 1, bind at 1, ret at 1.
        match goal with |- context [e_inmap E ?n ?v] => destruct (M1 n v) as [m ->] end. unfold bind, upd_ti, modify, ret. by intros [= <- _]. }
      destruct o as [[e|]|m| |]; try (by apply Hany; [done|intros Hs; by specialize (Hsm1 Hs)]).
      clear Hsm1 E1. apply tr_bind, tr_still; [apply (rq_input_icpt _ _ _ _ _ still0)|]. intros o s2 S2 E2.
      assert (still s s2) as S2' by (by eapply still_trans).
      assert (smooth -> o = Ok true) as Hsm2.
      { intros (_ & Hic & _). revert E2. unfold apply_input_icpt, bind, get_ti, bind, get. destruct (s_tis s1 !! t) eqn:Hx1.
        - unfold ret at 1, task_icpt. rewrite Hic. unfold ret. by intros [= <- _].
        - destruct S1 as (_ & _ & Hw). unfold wd_of in Hw. rewrite Hx, Hx1 in Hw. done. }
      destruct o as [ev|m| |]; try (by apply Hany; [done|intros Hs; by specialize (Hsm2 Hs)]).
      destruct ev; [|apply Hfin; [done|intros Hs; by specialize (Hsm2 Hs)]]. clear Hsm2 E2.
      apply tr_guard; [apply (rq_ext _ _ _ _ _ still0)|]. intros o s3 S3 E3.
      assert (still s s3) as S3' by (by eapply still_trans).
      assert (smooth -> o = Ok None) as Hsm3.
      { intros ((_ & M2 & _) & _). revert E3. unfold ext, bind, tick, bind, get, bind, modify, ret. rewrite M2. by intros [= <- _]. }
      destruct o as [[e|]|m| |]; try (by apply Hany; [done|intros Hs; by specialize (Hsm3 Hs)]).
      clear Hsm3 E3. apply tr_bind. unfold has_output_icpt, icpt_id. apply tr_bind, tr_get_ti. intros x4 Hx4 Hi4 Ht4. rewrite Hi4.
      apply tr_get_inst. intros y4 Hy4. apply tr_ret, tr_ret.
      match goal with |- tr (if ?b then _ else _) _ _ => destruct b eqn:Hb end.
      { apply tr_bind, tr_still; [apply (rq_exec_status _ _ _ _ _ still0)|]. intros o s5 S5 E5.
        assert (smooth -> False) as Hns.
        { intros (_ & Hic & _). unfold task_icpt in Hb. by rewrite Hic in Hb. }
        destruct o as [[]|m| |]; [apply Hfin; [by eapply still_trans|done]|apply Hany; [by eapply still_trans|done]..]. }
      apply tr_bind. eapply tr_mono; [apply call_marks|]. intros o s5 l (W5 & Hc).
      assert (wd_of s5 = wd_of s) as W5' by (destruct S3' as (_ & _ & <-); done).
      assert (forall r, called s3 r l -> called s r l) as Hcs.
      { intros r. unfold called, iter_of. destruct S3' as (_ & _ & ->). done. }
      destruct o as [[e|[]]|m| |]; [| | | |by split..].
      + apply tr_ret. split; [done|]. cbn [app]; rewrite ?app_nil_r. split; [right; right|intros _]; by apply Hcs.
      + apply tr_good. intros G5. apply tr_still; [apply still_finish|]. intros o s6 S6 E6. cbn [app]; rewrite ?app_nil_r.
        destruct (Hcs _ Hc) as (ins & out & Hl & Hout). destruct out as [e|]; [done|].
        assert (wd_of s6 = wd_of s) as W6 by (destruct S6 as (_ & _ & ->); done).
        split; [done|]. destruct o as [r|m| |]; [| |done..].
        * split; [right; left; eauto|]. intros Hs. pose proof (finish_smooth _ _ _ Hs G5 E6) as [= ->]. exists ins, None. eauto.
        * split; [right; left; eauto|]. intros Hs. pose proof (finish_smooth _ _ _ Hs G5 E6). done.
      + apply tr_ret. split; [done|]. cbn [app]; rewrite ?app_nil_r. split; [right; right|intros _]; by apply Hcs.
      + split; [done|]. split; [right; right|intros _]; by apply Hcs. }
    intros m Hm. apply tr_catch. eapply tr_mono; [exact Hm|]. intros o s1 l [W1 H1]. destruct o as [r|msg| |]; [done| |done..].
    apply tr_get_ti. intros x Hx Hi Ht. rewrite Ht. apply tr_ret. cbn [app]; rewrite ?app_nil_r. done.
  Qed.

  (** ** Retries *)
  Definition pairs (it : option wval) (ps : list (vmap * option err)) : list event :=
    flat_map (fun p => [EvAct i id p.1 it; EvActEnd i id p.2]) ps.
  Lemma pairs_app it a b : pairs it (a ++ b) = pairs it a ++ pairs it b.
  Proof. unfold pairs. by rewrite flat_map_app. Qed.

  Notation budget := (retries_left tk).
  Definition has_budget (s : st) (c : Z) : Prop := exists w, wd_of s = Some w /\ budget w c.

  (** The working data is the same, except for the retries left. *)
  Definition same_wd (s s' : st) : Prop := forall w, wd_of s = Some w -> exists w', wd_of s' = Some w' /\
    forall k, k <> "_retryOnErrorAttr" -> w' !! k = w !! k.
  Lemma same_wd_refl s : same_wd s s.
  Proof. intros w Hw. eauto. Qed.
  Lemma same_wd_eq s s' : wd_of s' = wd_of s -> same_wd s s'.
  Proof. intros Hw w. rewrite Hw. eauto. Qed.
  Lemma same_wd_trans a b c : same_wd a b -> same_wd b c -> same_wd a c.
  Proof.
    intros H1 H2 w Hw. destruct (H1 w Hw) as (w1 & Hw1 & K1). destruct (H2 w1 Hw1) as (w2 & Hw2 & K2).
    exists w2. split; [done|]. intros k Hk. by rewrite K2, K1.
  Qed.
  (** The retries used. *)
  Definition used (c c' : Z) : Prop := c' <= c /\ (c' < c -> 0 <= c').

  Lemma wd_of_p_ti f s w : wd_of s = Some w -> wd_of (p_ti t (fun x => set_ti_wd (f (ti_wd x)) x) s) = Some (f w).
  Proof. unfold wd_of. cbn. rewrite lookup_alter. destruct (s_tis s !! t) as [x|]; [|done]. cbn. by intros [= <-]. Qed.
  Lemma iter_of_wd s w : wd_of s = Some w -> iter_of s = w !! "iteration".
  Proof. unfold iter_of. by intros ->. Qed.
  Lemma tr_set_wd k w0 s (Q : out unit -> st -> list event -> Prop) :
    (forall s', good s' -> (forall w, wd_of s = Some w -> wd_of s' = Some (<[k := w0]> w)) -> Q (Ok tt) s' []) -> tr (set_wd t k w0) s Q.
  Proof.
    intros HQ G. set (s' := p_ti t (fun x => set_ti_wd (<[k := w0]> (ti_wd x)) x) s).
    assert (good s') as G'.
    { destruct G as [[(x & Hx & Hi & Ht) Ho] Hy]. split; [|done]. split; [|by apply okq_ti].
      eexists. unfold s'. cbn. rewrite lookup_alter, Hx. done. }
    split; [exact G'|]. exists []. split; [done|]. apply HQ; [done|]. intros w Hw. by apply wd_of_p_ti.
  Qed.

  Lemma tr_pure {A} (m : M A) a s (Q : out A -> st -> list event -> Prop) : m s = (Ok a, s) -> Q (Ok a) s [] -> tr m s Q.
  Proof. intros Hm HQ G. rewrite Hm. split; [done|]. by exists []. Qed.
  Lemma retry_value_fixed c z s : fixed c = Some z -> retry_value E t c s = (Ok (inr z), s).
  Proof. destruct c as [[src|z']|]; cbn; [done|..]; by intros [= <-]. Qed.

  Lemma retry_data_spec rc s c : t_retry tk = Some rc -> has_budget s c ->
    tr (retry_data E t rc) s (fun o s' l => l = [] /\ exists iv w, o = Ok (inr (c, iv)) /\ wd_of s' = Some w /\
      w !! "_retryOnErrorAttr" = Some (WRetry c iv) /\ budget w c /\ iter_of s' = iter_of s /\ same_wd s s').
  Proof.
    intros Hrc (w & Hw & B). assert (B' := B). unfold budget in B. rewrite Hrc in B. destruct B as [[z Hz] B].
    unfold retry_data. apply tr_get_ti. intros x Hx Hi Ht. unfold wd_of in Hw. rewrite Hx in Hw. injection Hw as Hw. rewrite Hw.
    destruct (w !! "_retryOnErrorAttr") as [[| | |c' iv]|] eqn:Hl; try done.
    - subst c'. apply tr_ret. split; [done|]. exists iv, w. split_and!; try done; [|apply same_wd_refl]. unfold wd_of. rewrite Hx. cbn. by rewrite Hw.
    - apply tr_bind, (tr_pure _ (inr c)); [by apply retry_value_fixed|].
      apply tr_bind, (tr_pure _ (inr z)); [by apply retry_value_fixed|].
      apply tr_bind, tr_set_wd. intros s' G' Hs'. apply tr_ret. split; [done|].
      assert (wd_of s = Some w) as Hw' by (unfold wd_of; rewrite Hx; cbn; by rewrite Hw).
      exists z, (<["_retryOnErrorAttr" := WRetry c z]> w). split_and!; [done|by apply Hs'|by rewrite lookup_insert| | |].
      + unfold budget. rewrite Hrc. rewrite lookup_insert. split; [|done]. eauto.
      + rewrite (iter_of_wd s' _ (Hs' w Hw')), (iter_of_wd _ _ Hw'). by rewrite lookup_insert_ne.
      + intros w1 Hw1. assert (w1 = w) as -> by congruence. eexists. split; [by apply Hs'|]. intros k Hk. by rewrite lookup_insert_ne.
  Qed.

  (** The outcome of an evaluation. *)
  Lemma called_pair s r l : called s r l -> exists p, l = pairs (iter_of s) [p] /\
    match p.2 with Some e => r = inl e | None => exists b, r = inr b end.
  Proof. intros (ins & out & -> & H). exists (ins, out). done. Qed.
  Lemma eval_pairs s : tr (eval_activity E t) s (fun o s' l => wd_of s' = wd_of s /\
    match o with
    | Ok r => exists ps, l = pairs (iter_of s) ps /\ (length ps <= 1)%nat /\
        (smooth -> exists p, ps = [p] /\ match p.2 with Some e => r = inl e | None => exists b, r = inr b end)
    | Panic _ => False | _ => True end).
  Proof.
    eapply tr_mono; [apply eval_marks|]. intros o s' l [Hw H]. split; [done|]. destruct o as [r| | |]; try done.
    destruct H as [H Hs].
    assert (exists ps, l = pairs (iter_of s) ps /\ (length ps <= 1)%nat) as (ps & Hl & Hn).
    { destruct H as [->|[(ins & ->)|(p & -> & _)%called_pair]].
      - exists []. split; [done|]. cbn. lia.
      - exists [(ins, None)]. split; [done|]. cbn. lia.
      - exists [p]. split; [done|]. cbn. lia. }
    exists ps. split_and!; try done. intros Hsm. destruct (called_pair _ _ _ (Hs Hsm)) as (p & Hp & Hr). exists p. split; [|done].
    rewrite Hl in Hp. destruct ps as [|[a b] [|q ps]]; cbn in Hp; [done| |cbn in Hn; lia].
    destruct p as [a' b']. cbn in Hp. by injection Hp as -> ->.
  Qed.

  Lemma has_budget_ext s s' c : wd_of s' = wd_of s -> has_budget s c -> has_budget s' c.
  Proof. unfold has_budget. by intros ->. Qed.
  Lemma iter_of_ext s s' : wd_of s' = wd_of s -> iter_of s' = iter_of s.
  Proof. unfold iter_of. by intros ->. Qed.

  Definition after_retries (s : st) (c n : Z) (r0 : option (err + bool)) (o : out (err + bool)) (s' : st) (l : list event) : Prop :=
    match o with
    | Ok r => exists ps c', l = pairs (iter_of s) ps /\ has_budget s' c' /\ used c c' /\ Z.of_nat (length ps) <= n + (c - c') /\
        iter_of s' = iter_of s /\ same_wd s s' /\
        (smooth -> match r0 with
          | None => retried c (map snd ps) r
          | Some r0 => forall o0, match o0 with Some e => r0 = inl e | None => exists b, r0 = inr b end -> retried c (o0 :: map snd ps) r
          end)
    | Panic _ => False
    | _ => True
    end.

  Lemma retry_loop_spec n : forall r s c, has_budget s c ->
    tr (retry_loop E n t r) s (after_retries s c 0 (Some r)).
  Proof.
    unfold after_retries.
    induction n as [|n IH]; intros r s c B; cbn [retry_loop]; apply tr_get_ti; intros x Hx Hi Ht; rewrite Ht.
    all: assert ((forall e, r = inl e -> retriable e = true -> c <= 0) -> tr (ret r) s (after_retries s c 0 (Some r))) as Hret
      by (intros Hc; apply tr_ret; exists [], c; split_and!; [done|done|unfold used; lia|cbn; lia|done|apply same_wd_refl|]; intros _ [e|] Ho;
        [rewrite Ho; apply retried_error; by apply Hc|destruct Ho as [b ->]; apply retried_done]).
    all: destruct r as [e|b]; [|by apply Hret].
    all: assert (t_retry tk = None -> c <= 0) as Hno by (intros Hn; destruct B as (w & _ & B); unfold budget in B; rewrite Hn in B; lia).
    all: destruct (t_retry tk) as [rc|] eqn:Hrc; [|by apply Hret; intros; apply Hno].
    all: destruct (retriable e) eqn:Hre; [|apply Hret; intros e' [= <-]; congruence].
    all: apply tr_bind; eapply tr_mono; [by apply retry_data_spec|]; intros o s1 l (-> & iv & w & -> & Hw & Hwr & Bw & Hit & Hsw).
    all: cbn beta iota; destruct (0 <? c) eqn:Hc; [apply Z.ltb_lt in Hc|apply Z.ltb_ge in Hc].
    1: { intros G. split; [done|]. exists []. done. }
    1,3: apply tr_ret; exists [], c; split_and!; [done|by exists w|unfold used; lia|cbn; lia|done|done|]; intros _ [e'|] Ho; [|by destruct Ho];
      injection Ho as <-; by apply retried_error.
    apply tr_bind, tr_set_wd. intros s2 G2 Hs2. specialize (Hs2 w Hw).
    assert (iter_of s2 = iter_of s) as Hit2.
    { rewrite (iter_of_wd _ _ Hs2), lookup_insert_ne by done. by rewrite <- (iter_of_wd _ _ Hw). }
    assert (same_wd s s2) as Hsw2.
    { eapply same_wd_trans; [done|]. intros w1 Hw1. assert (w1 = w) as -> by congruence. eexists. split; [done|]. intros k Hk. by rewrite lookup_insert_ne. }
    assert (has_budget s2 (c - 1)) as B2.
    { exists (<["_retryOnErrorAttr" := WRetry (c - 1) iv]> w). split; [done|]. unfold budget in Bw |- *. rewrite Hrc in Bw |- *.
      rewrite lookup_insert. by destruct Bw. }
    apply tr_bind. eapply tr_mono; [apply eval_pairs|]. intros [r1|m| |] s3 l3 [Hw3 H3]; try done.
    destruct H3 as (ps1 & -> & Hn1 & Hsm1).
    eapply tr_mono; [apply (IH r1 s3 (c - 1)); by eapply has_budget_ext|].
    intros [r2|m| |] s4 l4 H4; try done. destruct H4 as (ps & c' & -> & B4 & Hu & Hn & Hi4 & Hsw4 & Hsm).
    rewrite (iter_of_ext _ _ Hw3), Hit2 in Hi4 |- *. exists (ps1 ++ ps), c'. split_and!.
    + cbn [app]. by rewrite pairs_app.
    + done.
    + unfold used in *. lia.
    + rewrite app_length. lia.
    + done.
    + eapply same_wd_trans; [done|]. eapply same_wd_trans; [by apply same_wd_eq|done].
    + intros Sm [e'|] Ho; [|by destruct Ho]. injection Ho as <-. apply retried_again; [done..|].
      destruct (Hsm1 Sm) as (p & -> & Hp). cbn [app map]. by apply Hsm.
  Qed.

  Lemma eval_retry_spec s c : has_budget s c -> tr (eval_retry E t) s (after_retries s c 1 None).
  Proof.
    intros B. unfold eval_retry. apply tr_bind. eapply tr_mono; [apply eval_pairs|].
    intros [r|m| |] s1 l1 [Hw1 H1]; try done. destruct H1 as (ps1 & -> & Hn1 & Hsm1).
    apply (has_budget_ext _ _ _ Hw1) in B. assert (Hi1 := iter_of_ext _ _ Hw1).
    assert ((forall e, r = inl e -> retriable e = true -> c <= 0) -> tr (ret r) s1 (fun o s' l => after_retries s c 1 None o s' (pairs (iter_of s) ps1 ++ l))) as Hret.
    { intros Hc. apply tr_ret. exists ps1, c. rewrite app_nil_r. split_and!; [done|done|unfold used; lia|lia|done|by apply same_wd_eq|].
      intros Sm. destruct (Hsm1 Sm) as (p & -> & Hp). cbn [map]. destruct p as [a [e|]]; cbn in Hp |- *;
        [rewrite Hp; apply retried_error; by apply Hc|destruct Hp as [b ->]; apply retried_done]. }
    apply tr_get_ti. intros x Hx Hi Ht. rewrite Ht.
    destruct r as [e|b]; [|by apply Hret].
    assert (t_retry tk = None -> c <= 0) as Hno by (intros Hn; destruct B as (w & _ & B); unfold budget in B; rewrite Hn in B; lia).
    destruct (t_retry tk) as [rc|] eqn:Hrc; [|by apply Hret; intros; apply Hno].
    destruct (retriable e) eqn:Hre; [|apply Hret; intros e' [= <-]; congruence].
    apply tr_bind; eapply tr_mono; [by apply retry_data_spec|]; intros o s2 l (-> & iv & w & -> & Hw & Hwr & Bw & Hit & Hsw).
    cbn beta iota. apply tr_bind. unfold retry_bound. apply tr_get_ti. intros x2 Hx2 Hi2 Ht2. apply tr_ret.
    eapply tr_mono; [apply (retry_loop_spec _ _ s2 c); by exists w|].
    intros [r2|m| |] s4 l4 H4; try done. destruct H4 as (ps & c' & -> & B4 & Hu & Hn & Hi4 & Hsw4 & Hsm). cbn [app].
    rewrite Hit, Hi1, <- pairs_app in *. exists (ps1 ++ ps), c'. split_and!; [done|done|done|rewrite app_length; lia|congruence| |].
    - eapply same_wd_trans; [by apply same_wd_eq|]. by eapply same_wd_trans.
    - intros Sm. destruct (Hsm1 Sm) as (p & -> & Hp). cbn [app map]. apply Hsm; done.
  Qed.

  (** ** Loops *)
  Lemma tr_set_status z s (Q : out unit -> st -> list event -> Prop) :
    (forall s', wd_of s' = wd_of s -> Q (Ok tt) s' []) -> tr (set_task_status t z) s Q.
  Proof.
    intros HQ G. destruct G as [[(x & Hx & Hi & Ht) Ho] Hy].
    assert (set_task_status t z s = (Ok tt, p_tstat t x z s)) as ->.
    { unfold set_task_status, bind, get_ti, bind, get, upd_ti, modify, log_ev, modify. rewrite Hx. done. }
    cbn [fst snd]. assert (s_tis (p_tstat t x z s) !! t = Some (set_ti_status z x)) as Hx'.
    { cbn. rewrite lookup_alter, Hx. done. }
    split.
    - split; [|done]. split; [by exists (set_ti_status z x)|]. by apply (okq_ti t _ s).
    - exists [EvTaskUpd (ti_inst x) (t_id (ti_task x)) z]. split; [done|]. apply HQ. unfold wd_of. by rewrite Hx', Hx.
  Qed.

  (** The iterator over [v] before element [k]. *)
  Definition pos (v : val) (k : nat) : option iter :=
    let c := Z.of_nat k - 1 in
    match v with
    | VStr _ => (fun n => ItInt c n) <$> e_toint E v
    | VInt n => Some (ItInt c n)
    | VObj l => Some (ItObj c l)
    | VArr l => Some (ItArr c l)
    | _ => None
    end.
  Lemma make_iter_pos v : make_iter E v = pos v 0.
  Proof. by destruct v. Qed.
  Lemma iter_next_pos v k it : pos v k = Some it ->
    exists it', pos v (S k) = Some it' /\ iter_next it = (it', (fun p => (p.1, p.2, Z.of_nat k)) <$> elements_of E v !! k).
  Proof.
    assert (forall n, iter_next (ItInt (Z.of_nat k - 1) n) = (ItInt (Z.of_nat (S k) - 1) n,
      (fun p : val * val => (p.1, p.2, Z.of_nat k)) <$> ((fun k => (VInt k, VInt k)) <$> seqZ 0 n) !! k)) as Hi.
    { intros n. unfold iter_next. replace (Z.of_nat k - 1 + 1) with (Z.of_nat k) by lia.
      replace (Z.of_nat (S k) - 1) with (Z.of_nat k) by lia. f_equal. rewrite list_lookup_fmap.
      destruct (Z.ltb_spec (Z.of_nat k) n).
      - rewrite lookup_seqZ_lt by lia. done.
      - rewrite lookup_seqZ_ge by lia. done. }
    intros Hp. destruct v; cbn [pos elements_of] in *; try done.
    - injection Hp as <-. eexists. split; [done|]. apply Hi.
    - destruct (e_toint E _) as [n|] eqn:Hn; [|done]. injection Hp as <-. cbn. eexists. split; [done|]. apply Hi.
    - injection Hp as <-. eexists. split; [done|]. unfold iter_next.
      replace (Z.of_nat k - 1 + 1) with (Z.of_nat k) by lia. replace (Z.of_nat (S k) - 1) with (Z.of_nat k) by lia. f_equal.
      rewrite list_lookup_imap, Nat2Z.id. destruct (Z.ltb_spec (Z.of_nat k) (Z.of_nat (length l))); [by destruct (l !! k)|].
      by rewrite lookup_ge_None_2 by lia.
    - injection Hp as <-. eexists. split; [done|]. unfold iter_next.
      replace (Z.of_nat k - 1 + 1) with (Z.of_nat k) by lia. replace (Z.of_nat (S k) - 1) with (Z.of_nat k) by lia. f_equal.
      rewrite list_lookup_fmap, Nat2Z.id. destruct (Z.ltb_spec (Z.of_nat k) (Z.of_nat (length l))); [by destruct (l !! k)|].
      by rewrite lookup_ge_None_2 by lia.
  Qed.

  Definition loop_result (r0 : err + bool) : err + eval_result :=
    match r0 with inl e => inl e | inr true => inr EvalRepeat | inr false => inr EvalWait end.

  (** One round of an iterator over [v], the [k]th. *)
  Definition iter_round (v : val) (k : nat) (c : Z) (r : err + eval_result) (s' : st) (l : list event) : Prop :=
    (exists w' it', wd_of s' = Some w' /\ pos v (S k) = Some it' /\ w' !! "_iterator" = Some (WIter it')) /\
    match elements_of E v !! k with
    | None => l = [] /\ r = inr EvalDone /\ has_budget s' c
    | Some p => exists ps c' r0, l = pairs (Some (WIteration p.1 p.2 (Z.of_nat k))) ps /\ has_budget s' c' /\ used c c' /\
        Z.of_nat (length ps) <= 1 + (c - c') /\ r = loop_result r0 /\ (smooth -> retried c (map snd ps) r0)
    end.

  Lemma has_budget_wd s s' k w c : k <> "_retryOnErrorAttr" ->
    (forall w0, wd_of s = Some w0 -> wd_of s' = Some (<[k := w]> w0)) -> has_budget s c -> has_budget s' c.
  Proof.
    intros Hk Hs (w0 & Hw & B). exists (<[k := w]> w0). split; [by apply Hs|]. unfold budget in *. destruct (t_retry tk); [|done].
    by rewrite lookup_insert_ne.
  Qed.

  Lemma iter_step_spec v k it s c : pos v k = Some it -> has_budget s c ->
    tr (iter_step E t it) s (fun o s' l => match o with Ok r => iter_round v k c r s' l | Panic _ => False | _ => True end).
  Proof.
    intros Hp B. destruct (iter_next_pos v k it Hp) as (it' & Hp' & Hn). unfold iter_step. rewrite Hn.
    apply tr_bind, tr_set_wd. intros s1 G1 Hs1. assert (B0 := B). destruct B0 as (w & Hw & _).
    assert (B' := fun H => has_budget_wd _ _ _ _ _ H Hs1 B); specialize (B' ltac:(done)); clear B; rename B' into B. specialize (Hs1 w Hw). unfold iter_round.
    destruct (elements_of E v !! k) as [[key val]|]; cbn [fmap option_fmap option_map fst snd].
    - apply tr_bind, tr_set_wd. intros s2 G2 Hs2. assert (B' := fun H => has_budget_wd _ _ _ _ _ H Hs2 B); specialize (B' ltac:(done)); clear B; rename B' into B. specialize (Hs2 _ Hs1).
      assert (iter_of s2 = Some (WIteration key val (Z.of_nat k))) as Hi2 by (rewrite (iter_of_wd _ _ Hs2); by rewrite lookup_insert).
      apply tr_bind. eapply tr_mono; [by apply eval_retry_spec|]. intros [r|m| |] s3 l3 H3; try done.
      destruct H3 as (ps & c' & -> & B3 & Hu & Hlen & Hi3 & Hsw & Hsm). rewrite Hi2 in *.
      assert (exists w', wd_of s3 = Some w' /\ w' !! "_iterator" = Some (WIter it')) as (w3 & Hw3 & Hw3').
      { destruct (Hsw _ Hs2) as (w' & Hw' & K). exists w'. split; [done|]. rewrite K by done.
        by rewrite lookup_insert_ne, lookup_insert by done. }
      assert (forall s', wd_of s' = wd_of s3 -> (exists w' it'0, wd_of s' = Some w' /\ pos v (S k) = Some it'0 /\ w' !! "_iterator" = Some (WIter it'0)) /\
        exists ps0 c'0 r0, pairs (Some (WIteration key val (Z.of_nat k))) ps = pairs (Some (WIteration key val (Z.of_nat k))) ps0 /\ has_budget s' c'0 /\ used c c'0 /\
        Z.of_nat (length ps0) <= 1 + (c - c'0) /\ loop_result r = loop_result r0 /\ (smooth -> retried c (map snd ps0) r0)) as Hfin.
      { intros s' Hs'. split; [exists w3, it'; split_and!; try done; congruence|]. exists ps, c', r. split_and!; try done. by eapply has_budget_ext. }
      destruct r as [e|[]].
      + apply tr_bind, tr_set_status. intros s4 Hs4. apply tr_ret. cbn [app]. rewrite !app_nil_r. by apply Hfin.
      + apply tr_ret. cbn [app]. rewrite !app_nil_r. by apply Hfin.
      + apply tr_bind, tr_set_status. intros s4 Hs4. apply tr_ret. cbn [app]. rewrite !app_nil_r. by apply Hfin.
    - apply tr_ret. split; [|done]. eexists _, it'. split_and!; [done|done|]. by rewrite lookup_insert.
  Qed.

  Lemma iter_first_spec lc v s c w : t_loop tk = Some lc -> iterates E t s lc v -> make_iter E v <> None ->
    wd_of s = Some w -> w !! "_iterator" = None -> has_budget s c ->
    (forall x, s_tis s !! t = Some x -> ti_status x <> TSkipped) ->
    tr (iter_eval E t) s (fun o s' l => match o with Ok r => iter_round v 0 c r s' l | Panic _ => False | _ => True end).
  Proof.
    intros Hlc Hit Hmk Hw Hnone B Hst. unfold iter_eval. apply tr_get_ti. intros x Hx Hi Ht.
    rewrite bool_decide_false by (by apply Hst). assert (ti_wd x = w) as -> by (unfold wd_of in Hw; rewrite Hx in Hw; by injection Hw).
    rewrite Hnone, Ht, Hlc. apply tr_bind.
    assert (tr (iterate_on E t lc) s (fun o s' l => l = [] /\ o = Ok (inr v) /\ wd_of s' = wd_of s)) as Hon.
    { unfold iterate_on, iterates in *. destruct (lc_iter lc) as [[src|v']|]; [|rewrite Hit; by apply tr_ret|rewrite Hit; by apply tr_ret].
      apply tr_bind, tr_ext. intros s' ->. rewrite Hit. by apply tr_ret. }
    eapply tr_mono; [exact Hon|]. intros o s1 l (-> & -> & Hw1). clear Hon.
    destruct v; try done; cbn [app].
    all: destruct (make_iter E _) as [it|] eqn:Hmk'; [|done].
    all: rewrite make_iter_pos in Hmk'; apply tr_bind, tr_set_wd; intros s2 G2 Hs2; apply (has_budget_ext _ s1) in B; [|done];
      assert (B' := fun H => has_budget_wd _ _ _ _ _ H Hs2 B); specialize (B' ltac:(done)); clear B; rename B' into B; apply tr_bind, tr_set_wd; intros s3 G3 Hs3;
      assert (B' := fun H => has_budget_wd _ _ _ _ _ H Hs3 B); specialize (B' ltac:(done)); clear B; rename B' into B; eapply tr_mono; [by eapply iter_step_spec|]; done.
  Qed.
  Lemma iter_next_spec k it v s c w : pos v k = Some it -> wd_of s = Some w -> w !! "_iterator" = Some (WIter it) -> has_budget s c ->
    (forall x, s_tis s !! t = Some x -> ti_status x <> TSkipped) ->
    tr (iter_eval E t) s (fun o s' l => match o with Ok r => iter_round v k c r s' l | Panic _ => False | _ => True end).
  Proof.
    intros Hp Hw Hit B Hst. unfold iter_eval. apply tr_get_ti. intros x Hx Hi Ht.
    rewrite bool_decide_false by (by apply Hst). assert (ti_wd x = w) as -> by (unfold wd_of in Hw; rewrite Hx in Hw; by injection Hw).
    rewrite Hit. by apply iter_step_spec.
  Qed.

  (** One round of a doWhile task, the [k]th. *)
  Definition dw_round (k c : Z) (r : err + eval_result) (s' : st) (l : list event) : Prop :=
    exists ps c' r0 cl, l = pairs (Some (WDoWhile k)) ps ++ cl /\ has_budget s' c' /\ used c c' /\
      Z.of_nat (length ps) <= 1 + (c - c') /\ (smooth -> retried c (map snd ps) r0) /\
      match r0 with
      | inl e => cl = [] /\ r = inl e /\ iter_of s' = Some (WDoWhile k)
      | inr false => cl = [] /\ r = inr EvalWait /\ iter_of s' = Some (WDoWhile k)
      | inr true => iter_of s' = Some (WDoWhile (k + 1)) /\
          match (lc ← t_loop tk; lc_cond lc) with
          | None => cl = [] /\ r = inr EvalDone
          | Some src => (cl = [] /\ exists e, r = inl e) \/
              exists b, cl = [EvCond i id (Some (WDoWhile k)) (VBool b)] /\ r = inr (if b then EvalRepeat else EvalDone)
          end
      end.

  Lemma tr_finally {A} (m : M A) f s (Q : out A -> st -> list event -> Prop) :
    tr m s (fun o s1 l1 => match o with
      | Ok a => tr f s1 (fun o2 s2 l2 => match o2 with
          | Ok _ => Q (Ok a) s2 (l1 ++ l2) | Panic e => Q (Panic e) s2 (l1 ++ l2) | Fuel => Q Fuel s2 (l1 ++ l2) | Blocked => Q Blocked s2 (l1 ++ l2) end)
      | Panic e => tr f s1 (fun o2 s2 l2 => match o2 with
          | Ok _ => Q (Panic e) s2 (l1 ++ l2) | Panic e => Q (Panic e) s2 (l1 ++ l2) | Fuel => Q Fuel s2 (l1 ++ l2) | Blocked => Q Blocked s2 (l1 ++ l2) end)
      | Fuel => Q Fuel s1 l1 | Blocked => Q Blocked s1 l1
      end) -> tr (finally m f) s Q.
  Proof.
    intros H. unfold finally. apply tr_bind, tr_catch, tr_bind. eapply tr_mono; [exact H|]. clear H.
    intros [a|e| |] s1 l1 H1; try done.
    - apply tr_ret. cbn [app]. rewrite app_nil_r. apply tr_bind. eapply tr_mono; [exact H1|].
      intros [[]|e| |] s2 l2 H2; try done. apply tr_ret. by rewrite app_nil_r.
    - apply tr_ret. rewrite app_nil_r. apply tr_bind. eapply tr_mono; [exact H1|].
      intros [[]|e2| |] s2 l2 H2; try done. apply tr_panic. by rewrite app_nil_r.
  Qed.

  Lemma check_cond_spec s : tr (check_cond E t) s (fun o s' l => wd_of s' = wd_of s /\ match o with
    | Ok r => match (lc ← t_loop tk; lc_cond lc) with
          | None => l = [] /\ r = inr EvalDone
          | Some src => (l = [] /\ exists e, r = inl e) \/
              exists b, l = [EvCond i id (iter_of s) (VBool b)] /\ r = inr (if b then EvalRepeat else EvalDone)
          end
    | Panic _ => l = [] \/ exists v, l = [EvCond i id (iter_of s) v]
    | _ => False end).
  Proof.
    unfold check_cond. apply tr_get_ti. intros x Hx Hi Ht. rewrite Ht, Hi.
    assert (ti_wd x !! "iteration" = iter_of s) as -> by (unfold iter_of, wd_of; by rewrite Hx).
    destruct (t_loop tk) as [[[src|] ? ? ? ?]|]; cbn; [|by apply tr_ret..].
    apply tr_bind, tr_ext. intros s1 ->. destruct (e_cond E _ _ src) as [v|e|m].
    - apply tr_bind, tr_log. destruct v as [|[]|?|?|?|?|]; try (apply tr_panic; split; [done|]; right; eexists; reflexivity).
      + apply tr_ret. split; [done|]. right. by exists true.
      + apply tr_ret. split; [done|]. right. by exists false.
    - apply tr_ret. split; [done|]. left. eauto.
    - apply tr_panic. split; [done|]. by left.
  Qed.

  Lemma dw_eval_spec k s c w : wd_of s = Some w ->
    (w !! "iteration" = None /\ k = 0 \/ w !! "iteration" = Some (WDoWhile k)) -> has_budget s c ->
    (forall x, s_tis s !! t = Some x -> ti_status x <> TSkipped) ->
    tr (dw_eval E t) s (fun o s' l => match o with Ok r => dw_round k c r s' l | _ => True end).
  Proof.
    intros Hw Hk B Hst. unfold dw_eval. apply tr_get_ti. intros x Hx Hi Ht.
    rewrite bool_decide_false by (by apply Hst). apply tr_bind.
    assert (tr (init_index t) s (fun o s' l => l = [] /\ o = Ok tt /\ has_budget s' c /\ iter_of s' = Some (WDoWhile k))) as Hi0.
    { unfold init_index. apply tr_get_ti. intros x' Hx' _ _. assert (ti_wd x' = w) as -> by (unfold wd_of in Hw; rewrite Hx' in Hw; by injection Hw).
      destruct Hk as [[-> ->]| ->]; apply tr_set_wd; intros s' G' Hs'; split_and!; try done; try (eapply has_budget_wd; [|exact Hs'|exact B]; done);
        rewrite (iter_of_wd _ _ (Hs' w Hw)); by rewrite lookup_insert. }
    eapply tr_mono; [exact Hi0|]. intros o s1 l (-> & -> & B1 & I1). clear Hi0.
    apply tr_bind. eapply tr_mono; [by apply eval_retry_spec|]. intros [r|m| |] s2 l2 H2; try done.
    destruct H2 as (ps & c' & -> & B2 & Hu & Hlen & I2 & Hsw & Hsm). rewrite I1 in *. cbn [app].
    destruct r as [e|[]].
    - apply tr_bind, tr_set_status. intros s3 H3. apply tr_ret. exists ps, c', (inl e), []. split_and!; try done.
      + by eapply has_budget_ext.
      + by rewrite (iter_of_ext _ _ H3).
    - apply tr_finally. eapply tr_mono; [apply check_cond_spec|]. intros o s3 l3 [H3 Hc].
      assert (tr (update_index t) s3 (fun o2 s4 l4 => l4 = [] /\ o2 = Ok tt /\ has_budget s4 c' /\ iter_of s4 = Some (WDoWhile (k + 1)))) as Hup.
      { unfold update_index. apply tr_get_ti. intros x3 Hx3 _ _.
        assert (wd_of s3 = Some (ti_wd x3)) as Hw3 by (unfold wd_of; by rewrite Hx3).
        assert (ti_wd x3 !! "iteration" = Some (WDoWhile k)) as -> by (rewrite <- (iter_of_wd _ _ Hw3), (iter_of_ext _ _ H3); done).
        apply tr_set_wd. intros s4 G4 Hs4. split_and!; try done.
        - eapply has_budget_wd; [|exact Hs4|by eapply has_budget_ext]. done.
        - rewrite (iter_of_wd _ _ (Hs4 _ Hw3)). by rewrite lookup_insert. }
      destruct o as [r|m| |]; try done.
      + eapply tr_mono; [exact Hup|]. intros o2 s4 l4 (-> & -> & B4 & I4). exists ps, c', (inr true), l3. split_and!; try done.
        * by rewrite app_nil_r.
        * by rewrite I2 in Hc.
      + eapply tr_mono; [exact Hup|]. intros o2 s4 l4 (-> & -> & B4 & I4). done.
    - apply tr_bind, tr_set_status. intros s3 H3. apply tr_ret. exists ps, c', (inr false), []. split_and!; try done.
      + by eapply has_budget_ext.
      + by rewrite (iter_of_ext _ _ H3).
  Qed.

  Lemma basic_eval_spec s c : has_budget s c ->
    (forall x, s_tis s !! t = Some x -> ti_status x <> TSkipped) ->
    tr (basic_eval E t) s (fun o s' l => match o with
      | Ok r => exists ps c' r0, l = pairs (iter_of s) ps /\ has_budget s' c' /\ used c c' /\
          Z.of_nat (length ps) <= 1 + (c - c') /\ (smooth -> retried c (map snd ps) r0) /\
          r = match r0 with inl e => inl e | inr true => inr EvalDone | inr false => inr EvalWait end
      | Panic _ => False | _ => True end).
  Proof.
    intros B Hst. unfold basic_eval. apply tr_get_ti. intros x Hx Hi Ht. rewrite bool_decide_false by (by apply Hst).
    apply tr_bind. eapply tr_mono; [by apply eval_retry_spec|]. intros [r|m| |] s2 l2 H2; try done.
    destruct H2 as (ps & c' & -> & B2 & Hu & Hlen & I2 & Hsw & Hsm). apply tr_ret. exists ps, c', r. rewrite app_nil_r. by split_and!.
  Qed.
End Acts.
