(** An error handler without start tasks. No Go counterpart (proof infrastructure). *)
From Verif Require Export Asleep Errors.
From Verif Require Import SerProofs.
Local Open Scope Z_scope.

Lemma handler_stalls E d uri s t x e s1 h :
  running E d uri s -> built d -> cov_ok E -> settings_ok E -> e_conc E = false -> d_eh d = Some h -> start_tasks (eh_tasks h) = [] ->
  evaluates E s t x (inl e) s1 -> ti_inst x = 0%nat -> no_error_link (ti_task x) ->
  (forall y, s_insts s !! 0%nat = Some y -> i_handling y = false) -> pending s1 = [] ->
  (exists y, s_insts (do_step E s).2 !! 0%nat = Some y /\ i_tasks y = ∅) /\
  forall s', later E (do_step E s).2 s' -> main_status s' = Some FActive /\ s_queue s' = [] /\ evaluations s' = evaluations (do_step E s).2.
Proof.
  intros R Hb Hc Hs Hcc Hh Hn Ev Hi Hl Hh' Hp.
  destruct (handler_takes_over E d uri s t x e s1 h R Hb Hc Hs Hcc Hh) with (5:=Hh') as (y' & Hy & Ha & _ & Hq & Ht & _); [by rewrite Hn; intros ? ?%elem_of_nil|done|done|done|].
  rewrite Hp, Hn in Hq. rewrite Hn in Ht. apply fmap_nil_inv in Hq. split.
  { exists y'. split; [done|]. apply map_eq. intros id. rewrite lookup_empty. destruct (i_tasks y' !! id) eqn:Hid; [|done].
    assert (is_Some (i_tasks y' !! id)) as Hx by eauto. apply Ht in Hx. by apply elem_of_nil in Hx. }
  assert (s_queue (do_step E s).2 = []) as Hq'.
  { assert (running E d uri (do_step E s).2) as R' by by constructor. destruct (running_reach _ _ _ _ R') as [c Hr].
    pose proof (inv_items _ _ _ _ _ Hr) as Hit. destruct (s_queue (do_step E s).2) as [|[w u] q] eqn:He; [done|].
    destruct (Hit w u) as [z Hz]; [by left|]. unfold pending in Hq. rewrite He in Hq. cbn [omap list_omap snd] in Hq. rewrite Hz in Hq. done. }
  intros s' L. edestruct never_woken as (? & ? & _ & ?); [|exact Hq'|exact L|by split_and!].
  unfold main_status. rewrite Hy. cbn. by rewrite Ha.
Qed.
