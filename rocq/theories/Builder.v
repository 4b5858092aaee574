(** What the definition builder produces (proofs; no Go counterpart). *)
From Verif Require Export Spec.
Local Open Scope Z_scope.

(** ** Successful parts *)
Lemma bbind_ok {A B} (m : bres A) (f : A -> bres B) b :
  bbind m f = BOk b -> exists a, m = BOk a /\ f a = BOk b.
Proof. destruct m; simpl; [eauto|done]. Qed.
Lemma bbind_iff {A B} (m : bres A) (f : A -> bres B) (P Q : Prop) :
  ((exists a, m = BOk a) <-> P) -> (P -> forall a, m = BOk a -> (exists x, f a = BOk x) <-> Q) ->
  (exists x, bbind m f = BOk x) <-> P /\ Q.
Proof.
  intros H1 H2. destruct m as [a|e]; simpl.
  - assert P as HP by (apply H1; eauto). rewrite (H2 HP a eq_refl). tauto.
  - split; [intros [? [=]]|]. intros [HP _]. apply H1 in HP as [? [=]].
Qed.

(** ** Configuration *)
Lemma strip_eq_text s : strip_eq s = expr_text s.
Proof.
  destruct s as [|a r]; [done|]. simpl.
  destruct a as [[] [] [] [] [] [] [] []]; reflexivity.
Qed.
Lemma starts_eq_spec s : starts_eq s = true <-> exists r, s = String "="%char r.
Proof.
  destruct s as [|a r]; simpl; [split; [done|intros [? [=]]]|].
  destruct (Ascii.eqb_spec a "="%char) as [->|]; split; try done; [eauto|]. intros [? [=]]; done.
Qed.

Lemma retry_num_ok b m key : (exists x, retry_num b m key = BOk x) <-> num_setting_ok b m key.
Proof.
  unfold retry_num, num_setting_ok. destruct (m !! key) as [v|]; [|split; eauto].
  assert (forall v, (exists x : option num_cfg, match b_toint b v with
     | Some z => BOk (Some (NCInt z)) | None => BErr "retryOnError value must be int" end = BOk x) <->
     b_toint b v <> None) as HI.
  { intros w. destruct (b_toint b w); naive_solver. }
  destruct v as [|bo|z|s|l|l|z]; [split; eauto|try apply HI..].
  destruct (starts_eq s) eqn:Es.
  - apply starts_eq_spec in Es as [r ->]. simpl. destruct (b_expr b r); naive_solver.
  - transitivity (b_toint b (VStr s) <> None); [apply HI|].
    destruct s as [|a r]; [done|]. simpl in Es.
    destruct a as [[] [] [] [] [] [] [] []]; try reflexivity. done.
Qed.
Lemma retry_cfg_ok b st : (exists x, get_retry_cfg b st = BOk x) <-> retry_ok b st.
Proof.
  unfold get_retry_cfg, retry_ok. destruct (st !! "retryOnError") as [v|]; [|split; eauto].
  destruct (b_toobj b v) as [m|]; [|split; [intros [? [=]]|by intros (? & [=] & _)]].
  rewrite (bbind_iff _ _ (num_setting_ok b m "count") (num_setting_ok b m "interval")).
  - split; [eauto|]. by intros (? & [= <-] & ?).
  - apply retry_num_ok.
  - intros _ a _. rewrite <- retry_num_ok. destruct (retry_num b m "interval"); simpl; naive_solver.
Qed.

Lemma loop_obj_iff b m : (exists x, get_loop_cfg_def b (Some m) = BOk x) <-> loop_obj_ok b m.
Proof.
  unfold get_loop_cfg_def, loop_obj_ok. apply bbind_iff.
  { unfold loop_cond. destruct (m !! "condition") as [[| | |s| | |]|]; try naive_solver.
    destruct (String.eqb_spec s "") as [->|Hs]; [naive_solver|].
    rewrite strip_eq_text. destruct (b_expr b (expr_text s)); naive_solver. }
  intros _ c _. apply bbind_iff.
  { unfold loop_iter.
    generalize (match m !! "iterateOn" with None | Some VNil => m !! "iterate" | Some v => Some v end).
    intros o. cbv zeta. destruct o as [[| | |s| | |]|];
      try naive_solver.
    destruct (String.eqb_spec s "") as [->|Hs]; [naive_solver|].
    rewrite strip_eq_text. destruct (b_expr b (expr_text s)); naive_solver. }
  intros _ i _.
  assert (forall z, exists x : option loop_cfg,
    match c, i with None, None => BOk None
    | _, _ => BOk (Some (mk_loop c match m !! "accumulate" with Some v => b_tobool b v | None => false end z i false)) end = BOk x) as HE.
  { intros z. destruct c, i; eauto. }
  transitivity (exists z, loop_delay b m = BOk z).
  { destruct (loop_delay b m) as [z|e]; simpl; [|split; intros [? [=]]]. split; [eauto|]. intros _. apply HE. }
  unfold loop_delay. destruct (m !! "delay") as [v|]; [|split; eauto].
  assert (forall v, (exists x : Z, match b_toint b v with
     | Some z => BOk z | None => BErr "loop delay must be int" end = BOk x) <->
     b_toint b v <> None) as HI.
  { intros w. destruct (b_toint b w); naive_solver. }
  destruct v as [|bo|z|s|l|l|z]; [split; eauto|try apply HI..].
  destruct (starts_eq s) eqn:Es.
  - apply starts_eq_spec in Es as [r ->]. simpl. destruct (b_resolve b r) as [v|]; simpl.
    + rewrite HI. split; [eauto|]. by intros (? & [= <-] & ?).
    + split; [intros [? [=]]|]. by intros (? & [=] & _).
  - transitivity (b_toint b (VStr s) <> None); [apply HI|].
    destruct s as [|a r]; [done|]. simpl in Es.
    destruct a as [[] [] [] [] [] [] [] []]; try reflexivity. done.
Qed.
Lemma loop_objs_iff b v :
  (exists x, get_loop_cfg_def b (b_toobj b v) = BOk x) <-> exists m, b_toobj b v = Some m /\ loop_obj_ok b m.
Proof.
  destruct (b_toobj b v) as [m|].
  - rewrite loop_obj_iff. split; [eauto|]. by intros (? & [= <-] & ?).
  - split; [intros [? [=]]|]. by intros (? & [=] & _).
Qed.
Lemma bmap_ok {A B} (m : bres A) (f : A -> B) :
  (exists x, bbind m (fun a => BOk (f a)) = BOk x) <-> exists x, m = BOk x.
Proof. destruct m; simpl; split; eauto; intros [? [=]]. Qed.
Lemma loop_cfg_ok b st ty : (exists x, get_loop_cfg b st ty = BOk x) <-> loop_ok b st.
Proof.
  unfold get_loop_cfg, loop_ok. rewrite bmap_ok.
  destruct (st !! "loopConfig") as [v|]; [apply loop_objs_iff|].
  destruct (st !! "doWhile") as [v|]; [|apply loop_obj_iff].
  rewrite bmap_ok. apply loop_objs_iff.
Qed.

(** ** Tasks *)
Lemma valid_type_iff model ty :
  (exists t, valid_task_type model ty = Some t) <->
  model ∈ ["" ; "flogo-simple"] /\ ty ∈ ["basic"; "iterator"; "doWhile"].
Proof.
  unfold valid_task_type. rewrite !elem_of_cons, !elem_of_nil.
  destruct (String.eqb_spec model "") as [->|]; simpl.
  2: destruct (String.eqb_spec model "flogo-simple") as [->|]; simpl; [|split; [intros [? [=]]|naive_solver]].
  all: destruct (String.eqb_spec ty "basic") as [->|]; [split; eauto|];
    destruct (String.eqb_spec ty "iterator") as [->|]; [split; eauto 10|];
    destruct (String.eqb_spec ty "doWhile") as [->|]; [split; eauto 10|];
    (split; [intros [? [=]]|naive_solver]).
Qed.

Lemma create_task_ok b model eh r :
  (exists x, create_task b model eh r = BOk x) <-> task_rep_ok b model r.
Proof.
  unfold create_task, task_rep_ok. apply bbind_iff.
  { unfold task_type_ok. destruct (String.eqb_spec (tr_type r) "") as [E|E]; [split; eauto|].
    rewrite <- valid_type_iff. destruct (valid_task_type model (tr_type r)); split; eauto.
    - intros [? [=]].
    - intros [?|[? [=]]]. done. }
  intros _ ty _. apply bbind_iff; [apply loop_cfg_ok|].
  intros _ lc _. apply bbind_iff; [apply retry_cfg_ok|].
  intros _ rc _. apply bbind_iff.
  { destruct (b_setmap b (tr_settings r)); naive_solver. }
  intros _ sm _. rewrite bmap_ok. destruct (tr_act r) as [a|]; [|split; eauto; done].
  destruct (b_act b (tr_id r) a) eqn:E; split; eauto.
  - intros _ a' [= <-]. by rewrite E.
  - intros [? [=]].
  - intros H. by destruct (H a eq_refl).
Qed.

Lemma create_task_as b model eh r x :
  create_task b model eh r = BOk x ->
  task_as r x.1 /\ t_to x.1 = [] /\ t_from x.1 = [] /\ t_eh x.1 = eh.
Proof.
  unfold create_task. intros (ty & Hty & H)%bbind_ok.
  apply bbind_ok in H as (lc & _ & H). apply bbind_ok in H as (rc & _ & H).
  apply bbind_ok in H as (sm & _ & H). apply bbind_ok in H as (ac & Hac & H).
  injection H as <-. split; [|done]. split_and!; [done|done| |].
  - simpl. destruct (String.eqb_spec (tr_type r) "") as [E|E].
    + injection Hty as <-. by rewrite E.
    + unfold valid_task_type in Hty. destruct (orb _ _); [|done].
      destruct (String.eqb_spec (tr_type r) "basic") as [E1|]; [injection Hty as <-; by rewrite E1|].
      destruct (String.eqb_spec (tr_type r) "iterator") as [E2|]; [injection Hty as <-; by rewrite E2|].
      destruct (String.eqb_spec (tr_type r) "doWhile") as [E3|]; [injection Hty as <-; by rewrite E3|].
      done.
  - simpl. destruct (tr_act r) as [a|]; [destruct (b_act b (tr_id r) a)|]; by simplify_eq.
Qed.

(** Putting a task into the task map. *)
Lemma put_task_ids ts t x : x ∈ t_id <$> put_task ts t <-> x = t_id t \/ x ∈ t_id <$> ts.
Proof.
  induction ts as [|t' ts IH]; simpl; [set_solver|].
  destruct (String.eqb_spec (t_id t') (t_id t)) as [E|E]; csimpl; rewrite !elem_of_cons.
  - rewrite E. naive_solver.
  - rewrite IH. naive_solver.
Qed.
Lemma put_task_nodup ts t : NoDup (t_id <$> ts) -> NoDup (t_id <$> put_task ts t).
Proof.
  induction ts as [|t' ts IH]; intros H; simpl.
  - apply NoDup_cons. split; [set_solver|constructor].
  - csimpl in H. apply NoDup_cons in H as [H1 H2].
    destruct (String.eqb_spec (t_id t') (t_id t)) as [E|E]; csimpl; apply NoDup_cons.
    + by rewrite <- E.
    + split; [|auto]. rewrite put_task_ids. naive_solver.
Qed.
Lemma put_task_in ts t x :
  NoDup (t_id <$> ts) -> x ∈ put_task ts t <-> x = t \/ (x ∈ ts /\ t_id x <> t_id t).
Proof.
  induction ts as [|t' ts IH]; intros H; simpl; [set_solver|].
  csimpl in H. apply NoDup_cons in H as [H1 H2].
  destruct (String.eqb_spec (t_id t') (t_id t)) as [E|E]; rewrite !elem_of_cons.
  - split; [|naive_solver]. intros [->|Hx]; [by left|]. right. split; [by right|].
    intros Hid. apply H1. rewrite E, <- Hid. by apply elem_of_list_fmap_1.
  - rewrite IH by done. naive_solver.
Qed.

Lemma create_tasks_ok b model eh rs ts reply :
  (exists x, create_tasks b model eh rs ts reply = BOk x) <-> Forall (task_rep_ok b model) rs.
Proof.
  revert ts reply. induction rs as [|r rs IH]; intros ts reply; simpl; [split; eauto|].
  rewrite Forall_cons. apply bbind_iff; [apply create_task_ok|]. intros _ a _. apply IH.
Qed.

(** What the task loop produces. *)
Definition tasks_from (eh : bool) (rs : list task_rep) (ts : list task) : Prop :=
  NoDup (t_id <$> ts) /\
  (forall tk, tk ∈ ts -> t_to tk = [] /\ t_from tk = [] /\ t_eh tk = eh /\
     exists r, last_rep rs r /\ task_as r tk) /\
  (forall r, last_rep rs r -> exists tk, tk ∈ ts /\ task_as r tk).

Lemma last_rep_snoc rs r r' :
  last_rep (rs ++ [r]) r' <-> r' = r \/ (last_rep rs r' /\ tr_id r' <> tr_id r).
Proof.
  split.
  - intros (a & c & E & N). destruct c as [|r0 c _] using rev_ind.
    + apply app_inj_tail in E as [_ <-]. by left.
    + change (a ++ r' :: c ++ [r0]) with (a ++ (r' :: c) ++ [r0]) in E. rewrite app_assoc in E.
      apply app_inj_tail in E as [-> <-]. right. rewrite fmap_app in N. split.
      * exists a, c. set_solver.
      * set_solver.
  - intros [->|((a & c & -> & N) & Hne)].
    + exists rs, []. set_solver.
    + exists a, (c ++ [r]). rewrite <- app_assoc. split; [done|]. rewrite fmap_app. set_solver.
Qed.

Lemma create_tasks_from b model eh rs ts reply x rs0 :
  create_tasks b model eh rs ts reply = BOk x -> tasks_from eh rs0 ts -> tasks_from eh (rs0 ++ rs) x.1.
Proof.
  revert ts reply rs0. induction rs as [|r rs IH]; intros ts reply rs0 H I; simpl in H.
  - injection H as <-. by rewrite app_nil_r.
  - apply bbind_ok in H as (tr & Hr & H). rewrite cons_middle, app_assoc.
    eapply IH; [exact H|]. apply create_task_as in Hr as (HA & Ht & Hf & He).
    destruct I as (N & I1 & I2). assert (t_id tr.1 = tr_id r) as Hid by apply HA.
    split_and!; [by apply put_task_nodup|..].
    + intros tk Htk. rewrite put_task_in in Htk by done. destruct Htk as [->|[Htk Hne]].
      * split_and!; try done. exists r. split; [|done]. rewrite last_rep_snoc. by left.
      * destruct (I1 tk Htk) as (? & ? & ? & r' & Hr' & HA'). split_and!; try done.
        exists r'. split; [|done]. rewrite last_rep_snoc. right. split; [done|].
        destruct HA' as [<- _]. congruence.
    + intros r'. rewrite last_rep_snoc. intros [->|[Hr' Hne]].
      * exists tr.1. split; [|done]. rewrite put_task_in by done. by left.
      * destruct (I2 r' Hr') as (tk & Htk & HA'). exists tk. split; [|done].
        rewrite put_task_in by done. right. split; [done|]. destruct HA' as [-> _]. congruence.
Qed.

Lemma tasks_from_ids eh rs ts x : tasks_from eh rs ts -> x ∈ t_id <$> ts <-> x ∈ tr_id <$> rs.
Proof.
  intros (_ & I1 & I2). rewrite !elem_of_list_fmap. split.
  - intros (tk & -> & Htk). destruct (I1 tk Htk) as (_ & _ & _ & r & (a & c & -> & _) & [-> _]).
    exists r. set_solver.
  - intros (r & -> & Hr). clear I1.
    assert (exists r', last_rep rs r' /\ tr_id r' = tr_id r) as (r' & Hl & E).
    { clear I2. induction rs as [|r0 rs IH] using rev_ind; [by apply elem_of_nil in Hr|].
      destruct (decide (tr_id r0 = tr_id r)) as [E|E].
      - exists r0. split; [|done]. rewrite last_rep_snoc. by left.
      - apply elem_of_app in Hr as [Hr|Hr].
        + destruct (IH Hr) as (r' & ? & ?). exists r'. rewrite last_rep_snoc. split; [|done].
          right. split; [done|]. congruence.
        + apply elem_of_list_singleton in Hr as ->. done. }
    destruct (I2 r' Hl) as (tk & Htk & [Hid _]). exists tk. split; [congruence|done].
Qed.

(** ** Links *)
Lemma link_type_named_spec b r :
  (exists x, link_type_of b r = BOk x) <->
  (link_type_named (lr_type r) = LtExpression -> lr_value r <> "" /\ b_expr b (lr_value r) = true).
Proof.
  unfold link_type_of, link_type_named. set (ty := lr_type r).
  assert (forall a c, orb (String.eqb ty a) (String.eqb ty c) = bool_decide (ty ∈ [a; c])) as H.
  { intros a c. apply eq_bool_prop_intro. rewrite orb_True, bool_decide_spec, !elem_of_cons, elem_of_nil.
    rewrite !Is_true_true, !String.eqb_eq. naive_solver. }
  rewrite !H. case_bool_decide as H1.
  - destruct (String.eqb_spec (lr_value r) "") as [E|E].
    + split; [intros [? [=]]|]. intros HH. destruct (HH eq_refl) as [HH' _]. done.
    + destruct (b_expr b (lr_value r)); split; eauto; [intros [? [=]]|].
      intros HH. by destruct (HH eq_refl) as [_ ?].
  - repeat case_bool_decide; split; eauto; done.
Qed.
Lemma link_type_of_as b r x :
  link_type_of b r = BOk x ->
  x.1 = link_type_named (lr_type r) /\
  x.2 = (if decide (link_type_named (lr_type r) = LtExpression) then Some (lr_value r) else None).
Proof.
  unfold link_type_of, link_type_named. set (ty := lr_type r).
  assert (forall a c, orb (String.eqb ty a) (String.eqb ty c) = bool_decide (ty ∈ [a; c])) as H.
  { intros a c. apply eq_bool_prop_intro. rewrite orb_True, bool_decide_spec, !elem_of_cons, elem_of_nil.
    rewrite !Is_true_true, !String.eqb_eq. naive_solver. }
  rewrite !H. case_bool_decide as H1.
  - destruct (String.eqb (lr_value r) ""); [done|]. destruct (b_expr b (lr_value r)); [|done].
    by intros [= <-].
  - repeat case_bool_decide; by intros [= <-].
Qed.

Lemma find_task_some ts id : (exists tk, find_task ts id = Some tk) <-> id ∈ t_id <$> ts.
Proof.
  unfold find_task. rewrite elem_of_list_fmap. split.
  - intros (tk & H). destruct (list_find _ ts) as [[k tk']|] eqn:E; [|done].
    apply list_find_Some in E as (E & Hid & _). exists tk'. split; [done|].
    by eapply elem_of_list_lookup_2.
  - intros (tk & -> & Hin). destruct (list_find_elem_of (fun t => t_id t = t_id tk) ts tk Hin eq_refl) as [[k tk'] E].
    rewrite E. by exists tk'.
Qed.
Lemma attach_ids l (ts : list task) : t_id <$> (attach_link l <$> ts) = t_id <$> ts.
Proof. rewrite <- list_fmap_compose. by apply list_fmap_ext. Qed.

Lemma create_links_ok b eh ts ls n rs :
  (exists x, create_links b eh ts ls n rs = BOk x) <-> Forall (link_rep_ok b (t_id <$> ts)) rs.
Proof.
  revert ts ls n. induction rs as [|r rs IH]; intros ts ls n; simpl; [split; eauto|].
  rewrite Forall_cons. apply bbind_iff.
  - unfold create_link, link_rep_ok. rewrite <- !find_task_some.
    destruct (link_type_of b r) as [te|e] eqn:E; simpl.
    + assert (link_type_named (lr_type r) = LtExpression -> lr_value r <> "" /\ b_expr b (lr_value r) = true) as H
        by (apply link_type_named_spec; eauto).
      destruct (find_task ts (lr_to r)), (find_task ts (lr_from r)); split; eauto 10; try (by intros [? [=]]).
      all: intros ([? ?] & [? ?] & _); done.
    + split; [by intros [? [=]]|]. intros (_ & _ & H). apply link_type_named_spec in H as [? H]. congruence.
  - intros _ x Hx. rewrite IH. unfold create_link in Hx. apply bbind_ok in Hx as (te & _ & Hx).
    destruct (find_task ts (lr_to r)); [|done]. destruct (find_task ts (lr_from r)); [|done].
    injection Hx as <-. simpl. by rewrite attach_ids.
Qed.

(** The task of a section with its link lists. *)
Definition with_links (ls : list link) (tk : task) : task :=
  mk_task (t_id tk) (t_name tk) (t_type tk) (t_act tk) (t_set tk) (t_loop tk) (t_retry tk)
    (List.filter (fun l => String.eqb (l_from l) (t_id tk)) ls)
    (List.filter (fun l => String.eqb (l_to l) (t_id tk)) ls) (t_eh tk).

Lemma create_links_spec b eh ts0 ls n rs x :
  (forall tk, tk ∈ ts0 -> t_to tk = [] /\ t_from tk = []) ->
  create_links b eh (with_links ls <$> ts0) ls n rs = BOk x ->
  exists ls', x.2 = ls ++ ls' /\ x.1 = with_links x.2 <$> ts0 /\ Forall2 link_as rs ls' /\
    l_id <$> ls' = seq n (length ls') /\ Forall (fun l => l_eh l = eh) ls' /\
    Forall (fun l => l_from l ∈ t_id <$> ts0 /\ l_to l ∈ t_id <$> ts0) ls'.
Proof.
  intros H0. revert ls n. induction rs as [|r rs IH]; intros ls n H; simpl in H.
  - injection H as <-. exists []. rewrite app_nil_r. split_and!; constructor.
  - apply bbind_ok in H as (tl & Htl & H). unfold create_link in Htl.
    apply bbind_ok in Htl as (te & Hte & Htl).
    destruct (find_task _ (lr_to r)) as [t1|] eqn:E1; [|done].
    destruct (find_task _ (lr_from r)) as [t2|] eqn:E2; [|done].
    injection Htl as <-. cbn [fst snd] in H.
    set (l := mk_link n te.1 (lr_from r) (lr_to r) (lr_label r) (lr_value r) te.2 eh) in *.
    replace (attach_link l <$> (with_links ls <$> ts0)) with (with_links (ls ++ [l]) <$> ts0) in H.
    2: { rewrite <- list_fmap_compose. apply list_fmap_ext. intros _ tk _. unfold compose, attach_link, with_links.
         simpl. rewrite !List.filter_app. simpl.
         rewrite (String.eqb_sym (lr_from r)), (String.eqb_sym (lr_to r)).
         destruct (String.eqb (t_id tk) (lr_from r)), (String.eqb (t_id tk) (lr_to r));
           rewrite ?app_nil_r; done. }
    apply IH in H as (ls' & E & Ex & F & N & EH & EN). exists (l :: ls').
    assert (forall id, id ∈ t_id <$> (with_links ls <$> ts0) -> id ∈ t_id <$> ts0) as Hids.
    { intros id. by rewrite <- list_fmap_compose. }
    apply link_type_of_as in Hte as [T1 T2].
    split_and!.
    + by rewrite E, <- app_assoc.
    + done.
    + constructor; [|done]. unfold link_as, l. simpl. by rewrite T1, T2.
    + csimpl. by rewrite N.
    + by constructor.
    + constructor; [|done]. split; apply Hids, find_task_some; eauto.
Qed.

Lemma create_section b eh model rs reply ts lrs n x rs' :
  create_tasks b model eh rs [] reply = BOk ts ->
  create_links b eh ts.1 [] n lrs = BOk x -> rs' = rs ->
  section_ok eh n x.1 x.2 /\ Forall2 link_as lrs x.2 /\
  (forall tk, tk ∈ x.1 -> exists r, last_rep rs r /\ task_as r tk) /\
  (forall r, last_rep rs r -> exists tk, tk ∈ x.1 /\ task_as r tk).
Proof.
  intros Ht Hl _.
  assert (tasks_from eh ([] ++ rs) ts.1) as (N & I1 & I2).
  { eapply create_tasks_from; [done|]. split_and!; [constructor|set_solver|].
    intros r ([|] & c & [=] & _). }
  simpl in I1, I2.
  replace ts.1 with (with_links [] <$> ts.1) in Hl.
  2: { rewrite <- (list_fmap_id ts.1) at 2. apply list_fmap_ext. intros k tk Hk.
       apply elem_of_list_lookup_2, I1 in Hk as (A & B & _). destruct tk. simpl in *. by subst. }
  apply create_links_spec in Hl as (ls' & E & Ex & F & Nl & EH & EN).
  2: { intros tk Hk. apply I1 in Hk as (A & B & _). done. }
  simpl in E. rewrite E in *.
  assert (t_id <$> x.1 = t_id <$> ts.1) as Hids.
  { rewrite Ex, <- list_fmap_compose. by apply list_fmap_ext. }
  split_and!; [constructor|done|..].
  - by rewrite Hids.
  - intros tk. rewrite Ex, elem_of_list_fmap. intros (tk0 & -> & Hk). by apply I1 in Hk as (? & ? & ? & _).
  - intros tk. rewrite Ex, elem_of_list_fmap. by intros (tk0 & -> & Hk).
  - intros tk. rewrite Ex, elem_of_list_fmap. by intros (tk0 & -> & Hk).
  - done.
  - by apply Forall_forall.
  - rewrite Hids. by apply Forall_forall.
  - intros tk. rewrite Ex, elem_of_list_fmap. intros (tk0 & -> & Hk).
    apply I1 in Hk as (_ & _ & _ & r & Hr & HA). exists r. done.
  - intros r Hr. destruct (I2 r Hr) as (tk & Htk & HA). exists (with_links ls' tk). split; [|done].
    rewrite Ex. by apply elem_of_list_fmap_1.
Qed.

Lemma new_definition_ok b r : (exists d, new_definition b r = BOk d) <-> rep_ok b r.
Proof.
  unfold new_definition, rep_ok. apply bbind_iff; [apply create_tasks_ok|].
  intros _ tr Htr. apply bbind_iff.
  { rewrite create_links_ok. unfold link_rep_ok. apply Forall_iff. intros l.
    apply (create_tasks_from _ _ _ _ _ _ _ []) in Htr.
    2: { split_and!; [constructor|set_solver|]. intros ? ([|] & c & [=] & _). }
    simpl in Htr. by rewrite !(tasks_from_ids _ _ _ _ Htr). }
  intros _ tl _. destruct (dr_eh r) as [[ets els]|]; [|split; [by eauto|eauto]].
  transitivity (Forall (task_rep_ok b (dr_model r)) ets /\ Forall (link_rep_ok b (tr_id <$> ets)) els).
  - apply bbind_iff; [apply create_tasks_ok|]. intros _ etr Hetr. rewrite bmap_ok, create_links_ok.
    unfold link_rep_ok. apply Forall_iff. intros l.
    apply (create_tasks_from _ _ _ _ _ _ _ []) in Hetr.
    2: { split_and!; [constructor|set_solver|]. intros ? ([|] & c & [=] & _). }
    simpl in Hetr. by rewrite !(tasks_from_ids _ _ _ _ Hetr).
  - split; [by intros H ? ? [= <- <-]|]. eauto.
Qed.

Lemma new_definition_spec b r d :
  new_definition b r = BOk d ->
  graph_ok d /\ d_name d = dr_name r /\ d_md d = dr_md r /\
  Forall2 link_as (dr_links r) (d_links d) /\
  (forall tk, tk ∈ d_tasks d -> exists r', last_rep (dr_tasks r) r' /\ task_as r' tk) /\
  (forall r', last_rep (dr_tasks r) r' -> exists tk, tk ∈ d_tasks d /\ task_as r' tk) /\
  match dr_eh r, d_eh d with
  | None, None => True
  | Some (ts, ls), Some h =>
      Forall2 link_as ls (eh_links h) /\
      (forall tk, tk ∈ eh_tasks h -> exists r', last_rep ts r' /\ task_as r' tk) /\
      (forall r', last_rep ts r' -> exists tk, tk ∈ eh_tasks h /\ task_as r' tk)
  | _, _ => False
  end.
Proof.
  unfold new_definition. intros H. apply bbind_ok in H as (tr & Htr & H).
  apply bbind_ok in H as (tl & Htl & H).
  destruct (create_section _ _ _ _ _ _ _ _ _ _ Htr Htl eq_refl) as (S1 & L1 & A1 & B1).
  assert (length tl.2 = length (dr_links r)) as Hlen by (symmetry; by eapply Forall2_length).
  destruct (dr_eh r) as [[ets els]|].
  - apply bbind_ok in H as (etr & Hetr & H). apply bbind_ok in H as (etl & Hetl & H).
    injection H as <-.
    destruct (create_section _ _ _ _ _ _ _ _ _ _ Hetr Hetl eq_refl) as (S2 & L2 & A2 & B2).
    split_and!; try done. simpl. split; [done|]. intros h [= <-]. simpl. by rewrite Hlen.
  - injection H as <-. split_and!; try done.
Qed.

Lemma built_graph d : built d -> graph_ok d.
Proof. intros (b & r & H). by apply new_definition_spec in H as [? _]. Qed.
