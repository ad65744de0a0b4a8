(** Runs of [UrcOrdModel]. *)
From Verif Require Export UrcOrdProofs4 UrcFacts2.
From Coq Require Import ZifyBool ZifyNat ZifyN.

Section ord_runs.
  Context {PR : Profile} {T : Type}.
  Notation conf := (uconf T).
  Notation xconf := (xconf T).
  Implicit Types (c : conf) (w : xconf) (h : uhandle) (tv : tview) (l : ulabel T) (f : nat) (x : fence).

  (** What a step does besides reading the counters. *)
  Lemma xstep_ustep l t w w' :
    xstep l t w = Some w' ->
    exists c0 c1, ustep l c0 = Some c1 /\ u_hs c0 = u_hs (x_urc w) /\ u_fences c0 = u_fences (x_urc w) /\ u_log c0 = u_log (x_urc w) /\
      u_hs (x_urc w') = u_hs c1 /\ u_fences (x_urc w') = u_fences c1 /\ u_log (x_urc w') = u_log c1.
  Proof.
    intros Hst. apply xstep_inv in Hst as (h&tv&tv'&w1&_&_&Hpf&Eu&_). apply perform_spec in Hpf as [_ Hp].
    rewrite Eu. by eapply performed_step.
  Qed.
  Lemma xstep_extends l t w w' : xstep l t w = Some w' -> extends (x_urc w) (x_urc w').
  Proof.
    intros Hst. apply xstep_ustep in Hst as (c0&c1&Hgo&_&_&E0&_&_&E1). destruct (ustep_extends _ _ _ Hgo) as [es H].
    exists es. by rewrite E1, H, E0.
  Qed.
  Lemma xrun_extends ls w w' : xrun ls w = Some w' -> extends (x_urc w) (x_urc w').
  Proof.
    revert w. induction ls as [|[l t] ls IH]; intros w H; simpl in H.
    - injection H as <-. by apply ext_refl.
    - destruct (xstep l t w) as [w1|] eqn:E; [|done]. destruct (xstep_extends _ _ _ _ E) as [e1 H1].
      destruct (IH _ H) as [e2 H2]. exists (e1 ++ e2). by rewrite H2, H1, app_assoc.
  Qed.
  Lemma xrun_app ls ls' w : xrun (ls ++ ls') w = match xrun ls w with Some w' => xrun ls' w' | None => None end.
  Proof.
    revert w. induction ls as [|[l t] ls IH]; intros w; [done|]. simpl. destruct (xstep l t w); [|done]. apply IH.
  Qed.

  Lemma XI_run ls n w w' :
    XI n w -> n + llen ls + 7 <= usize_max -> xrun ls w = Some w' -> happened is_zeroing (x_urc w') = 0 -> XI (n + llen ls) w'.
  Proof.
    revert n w. induction ls as [|[l t] ls IH]; intros n w HI Hn Hr Hz; simpl in Hr.
    - injection Hr as <-. simpl. by rewrite N.add_0_r.
    - destruct (xstep l t w) as [w1|] eqn:E; [|done].
      pose proof (extends_hap is_zeroing _ _ (xrun_extends _ _ _ Hr)) as Hm.
      simpl in Hn. assert (HI1 : XI (n + 1) w1) by (eapply XI_step; [done|lia|done|lia]).
      assert (HI2 : XI (n + 1 + llen ls) w') by (eapply IH; [done|lia|done|done]).
      replace (n + llen ((l, t) :: ls)) with (n + 1 + llen ls) by (simpl; lia). done.
  Qed.
  Lemma ord_reached_inv (y : T) ls w :
    urc_ord_reached y ls w -> happened is_zeroing (x_urc w) = 0 -> exists n, XI n w /\ n + 7 <= usize_max.
  Proof.
    intros [Hn Hr] Hz. exists (1 + llen ls). split; [|lia]. eapply XI_run; [apply XI_init|lia|done|done].
  Qed.

  (** Without [try_unwrap] and [make_mut]. *)
  Lemma ord_sharing_zero (y : T) ls w :
    urc_ord_reached y ls w -> forallb sharing (map fst ls) = true -> happened is_zeroing (x_urc w) = 0.
  Proof.
    intros [_ Hr] Hs. assert (HS : SH (x_urc w)); [|by destruct HS].
    assert (HS0 : SH (x_urc (x_init y))) by apply SH_init. revert HS0 Hr Hs. generalize (x_init y).
    induction ls as [|[l t] ls IH]; intros w0 HS0 Hr Hs; simpl in Hr, Hs; [by injection Hr as <-|].
    destruct (xstep l t w0) as [w1|] eqn:E; [|done]. apply andb_true_iff in Hs as [Hs1 Hs2].
    eapply IH; [|exact Hr|exact Hs2]. apply xstep_ustep in E as (c0&c1&Hgo&E0&_&E1&E2&_&E3).
    eapply SH_eq; [|exact E3|exact E2]. eapply SH_step; [|exact Hs1|exact Hgo]. by eapply SH_eq.
  Qed.

  (** The value. *)
  Lemma val_set_counter k n c : u_val (set_counter k n c) = u_val c. Proof. by destruct k. Qed.
  Lemma xval_step l t w w' :
    xstep l t w = Some w' -> happened is_bad (x_urc w') = happened is_bad (x_urc w) -> u_val (x_urc w') = wrote l (u_val (x_urc w)).
  Proof.
    intros Hst. apply xstep_inv in Hst as (h&tv&tv'&w1&_&_&Hpf&Eu&_). apply perform_spec in Hpf as [_ Hp]. rewrite Eu. intros Hb.
    assert (Hld : forall k o, loaded k o t (fenced (fence_l l (u_pc h)) tv) w (ustep l) tv' w1 -> u_val (x_urc w1) = wrote l (u_val (x_urc w))).
    { intros k o (m&c1&_&_&Hgo&E&_). rewrite E, val_set_counter. rewrite E, hap_set_counter in Hb.
      rewrite (val_step _ _ _ Hgo); [by rewrite val_set_counter|]. by rewrite hap_set_counter. }
    destruct (action_l l (u_pc h)) as [|k o|k o fo|k o|k]; simpl in Hp.
    - destruct Hp as [Hp _]. by eapply val_step.
    - by eapply Hld.
    - destruct Hp as [[Hp _]|(m&m'&_&Hgo&_)]; [by eapply Hld|].
      rewrite (val_step _ _ _ Hgo); [by rewrite val_set_counter|]. by rewrite hap_set_counter.
    - destruct Hp as [Hp _]. by eapply val_step.
    - destruct Hp as [Hp _]. by eapply val_step.
  Qed.
  Lemma xval_run ls w w' :
    xrun ls w = Some w' -> happened is_bad (x_urc w') = happened is_bad (x_urc w) ->
    u_val (x_urc w') = last_written (u_val (x_urc w)) (map fst ls).
  Proof.
    revert w. induction ls as [|[l t] ls IH]; intros w Hr Hb; simpl in Hr; [by injection Hr as <-|].
    destruct (xstep l t w) as [w1|] eqn:E; [|done].
    pose proof (extends_hap is_bad _ _ (xstep_extends _ _ _ _ E)). pose proof (extends_hap is_bad _ _ (xrun_extends _ _ _ Hr)).
    rewrite (IH _ Hr) by lia. rewrite (xval_step _ _ _ _ E) by lia. simpl. by destruct l.
  Qed.

  (** Who reads a count of one and acquires it knows all uses of the value. *)
  Lemma one_known n w f tv tv' m :
    XI n w -> is_open (x_urc w) f -> x_fv w !! f = Some tv -> vle (t_cur tv) (t_cur tv') ->
    last (x_strong w) = Some m -> m_val m = 1 -> vle (m_view m) (t_cur tv') ->
    forall e a, x_trace w !! e = Some a -> value_access a -> e ∈ v_seen (t_cur tv').
  Proof.
    intros HX Hof Hv Hle Hl0 H1 Hm e a He Ha. pose proof (xi_u _ _ HX) as HI.
    assert (Hs : u_sf (x_urc w) = 1) by (rewrite <- H1; symmetry; apply (xi_last _ _ HX LStrong _ Hl0)).
    destruct (xi_cov _ _ HX (sole_A _ _ _ HI Hs Hof) e a He Ha) as [(g&Hg&Hse)|[(j&h0&Hj&Hp0&_)|(m2&Hm2&Hse)]].
    - rewrite <- (sole_open _ _ _ _ HI Hs Hof Hg) in Hse. destruct Hse as (tv2&Hv2&Hin). rewrite Hv in Hv2. injection Hv2 as <-.
      by eapply vle_in.
    - exfalso. eapply (sole_pend' _ _ _ _ _ HI Hs Hof Hj). by rewrite Hp0.
    - rewrite Hl0 in Hm2. injection Hm2 as <-. by eapply vle_in.
  Qed.
End ord_runs.
