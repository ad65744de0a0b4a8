(** What is known lies in the past: bounds on the views in all runs of [UrcOrdModel]. *)
From Verif Require Export UrcOrdProofs6.
From Coq Require Import ZifyBool ZifyNat ZifyN.

Section ord_bounds.
  Context {PR : Profile} {T : Type}.
  Notation conf := (uconf T).
  Notation xconf := (xconf T).
  Implicit Types (c : conf) (w : xconf) (h : uhandle) (tv : tview) (v : view) (l : loc).

  Lemma perform_any a t tv w go tv' w' :
    hok w -> msgs w -> bt w tv ->
    (forall c c', u_hs c = u_hs (x_urc w) -> go c = Some c' -> fx a c c') ->
    perform a t tv w go = Some (tv', w') -> x_fv w' = x_fv w /\ hok w' /\ bt w' tv' /\ msgs w' /\ longer w w'.
  Proof.
    intros Hk Hms Hb Hf Hp.
    assert (Hsame : forall w', x_strong w' = x_strong w -> x_weak w' = x_weak w -> longer w w') by
      (intros w0 E1 E2; split; rewrite ?E1, ?E2; lia).
    assert (Hkeep : forall w' tv', x_fv w' = x_fv w -> x_strong w' = x_strong w -> x_weak w' = x_weak w ->
      u_sf (x_urc w') = u_sf (x_urc w) -> u_wf (x_urc w') = u_wf (x_urc w) -> bt w tv' ->
      x_fv w' = x_fv w /\ hok w' /\ bt w' tv' /\ msgs w' /\ longer w w').
    { intros w0 tv0 E2 E3 E4 E5 E6 Hb'. split; [done|]. split.
      - unfold hok. rewrite E3, E4, E5, E6. done.
      - split; [by eapply bt_eq|]. split; [by eapply msgs_eq|]. by apply Hsame. }
    destruct a as [|l o|l o f|l o|k]; simpl in Hf; simpl in Hp.
    - destruct (go _) as [c'|] eqn:Hgo; [|done]. simpl in Hp. injection Hp as <- <-. destruct (Hf _ _ eq_refl Hgo). by apply Hkeep.
    - destruct (hist l w !! t) as [m|] eqn:Hm; [|done]. simpl in Hp. destruct (_ <=? _)%nat eqn:Hle; [|done].
      destruct (go _) as [c'|] eqn:Hgo; [|done]. simpl in Hp. injection Hp as <- <-.
      destruct (Hf _ _ (hs_set_counter l (m_val m) (x_urc w)) Hgo) as [F1 F2]. apply Hkeep; try (by destruct l); try done.
      apply bt_got; [by apply bt_made|by eapply lookup_lt_Some|]. eapply (Hms l). by eapply elem_of_list_lookup_2.
    - destruct (hist l w !! t) as [m|] eqn:Hm; [|done]. simpl in Hp. destruct (_ <=? _)%nat eqn:Hle; [|done].
      destruct (go _) as [c'|] eqn:Hgo; [|done]. simpl in Hp.
      pose proof (Hf _ _ (hs_set_counter l (m_val m) (x_urc w)) Hgo) as F. rewrite counter_other in F by (by destruct l).
      assert (Hbm : bnd w (m_view m)) by (eapply (Hms l); by eapply elem_of_list_lookup_2).
      assert (Hbg : forall o, bt w (got l o t m (made w tv))) by (intros; apply bt_got; [by apply bt_made|by eapply lookup_lt_Some|done]).
      destruct (counter l c' =? m_val m) eqn:Ec.
      + injection Hp as <- <-. apply Hkeep; try (by destruct l); try done.
      + destruct (length (hist l w)) as [|n] eqn:En; [done|]. destruct (t =? n)%nat; [|done]. rewrite <- En in Hp. injection Hp as <- <-.
        destruct (write_now l o _ (m_view m) w (record KAtomic tv (set_urc c' w)) c' Hk Hms (Hbg o) Hbm F eq_refl eq_refl eq_refl eq_refl)
          as (G1&G2&G3&G4&G5&G6).
        by split.
    - destruct (go _) as [c'|] eqn:Hgo; [|done]. simpl in Hp. injection Hp as <- <-. pose proof (Hf _ _ eq_refl Hgo) as F.
      destruct (write_now l o _ v_none w (record KAtomic tv (set_urc c' w)) c' Hk Hms (bt_made _ _ Hk Hb) (bnd_none _ Hk) F eq_refl eq_refl eq_refl eq_refl)
        as (G1&G2&G3&G4&G5&G6).
      by split.
    - destruct (go _) as [c'|] eqn:Hgo; [|done]. simpl in Hp. injection Hp as <- <-. destruct (Hf _ _ eq_refl Hgo).
      apply Hkeep; try done. by apply bt_made.
  Qed.

  Lemma NW_step (la : ulabel T) t w w' : NW w -> xstep la t w = Some w' -> NW w'.
  Proof.
    intros (Hk&Hms&Hb&Hl&HF) Hst. pose proof (xstep_ustep _ _ _ _ Hst) as (c0&c1&Hgo&Eh0&Ef0&_&Eh1&Ef1&_).
    apply xstep_inv in Hst as (h&tv&tv'&w1&Hi&Hv&Hp&Eu&Es&Ew&Et&Ev).
    pose proof (Forall_lookup_1 _ _ _ _ Hb Hv) as Hbt.
    destruct (perform_any _ _ _ _ _ _ _ Hk Hms (bt_fenced _ (fence_l la (u_pc h)) _ Hbt)
      (fun c c' E H => fx_l la c c' h H ltac:(by rewrite E)) Hp) as (E2&Hk1&Hbt1&Hms1&Hlg).
    assert (HF0 : Forall (fun h => (u_fence h < length (u_fences c0))%nat) (u_hs c0)) by (by rewrite Eh0, Ef0).
    destruct (ustep_shape _ _ _ Hgo HF0) as [Hlen HF']. rewrite <- Ef1, Ef0 in Hlen.
    assert (Hb1 : Forall (bt w1) (<[u_fence h := tv']> (x_fv w))).
    { apply Forall_insert; [|done]. eapply Forall_impl; [exact Hb|]. intros. by eapply bt_le. }
    split; [|split; [|split; [|split]]].
    - unfold hok. rewrite Es, Ew, Eu. exact Hk1.
    - by eapply msgs_eq.
    - assert (Hbw : Forall (bt w') (<[u_fence h := tv']> (x_fv w))).
      { eapply Forall_impl; [exact Hb1|]. intros. by eapply bt_eq. }
      rewrite Ev. destruct (_ <? _)%nat; [|done]. apply Forall_app. split; [exact Hbw|]. constructor; [|constructor].
      eapply bt_eq; [|exact Es|exact Ew]. destruct Hbt1 as [Hb2 _]. split; [exact Hb2|]. by apply bnd_none.
    - rewrite Ev. destruct Hlen as [E|E]; rewrite E.
      + by rewrite Nat.ltb_irrefl, insert_length.
      + rewrite (proj2 (Nat.ltb_lt _ _)) by lia. rewrite app_length, insert_length. simpl. lia.
    - by rewrite Eh1, Ef1.
  Qed.
  Lemma NW_run ls w w' : NW w -> xrun ls w = Some w' -> NW w'.
  Proof.
    revert w. induction ls as [|[l t] ls IH]; intros w HN Hr; simpl in Hr; [by injection Hr as <-|].
    destruct (xstep l t w) as [w1|] eqn:E; [|done]. eapply IH; [|done]. by eapply NW_step.
  Qed.

  (** *** Threads that know the latest values *)
  Definition kn w (f : nat) : Prop :=
    exists tv, x_fv w !! f = Some tv /\ S (v_strong (t_cur tv)) = length (x_strong w) /\ S (v_weak (t_cur tv)) = length (x_weak w).

  Lemma kn_step (la : ulabel T) t w w' h :
    NW w -> u_hs (x_urc w) !! who la = Some h -> kn w (u_fence h) -> fence_l la (u_pc h) = None ->
    xstep la t w = Some w' -> ustep la (x_urc w) = Some (x_urc w') /\ kn w' (u_fence h).
  Proof.
    intros HN Hi (tv&Hv&K1&K2) Hfe Hst. pose proof (NW_step _ _ _ _ HN Hst) as HN'.
    apply xstep_inv in Hst as (h'&tv0&tv'&w1&Hi'&Hv'&Hp&Eu&Es&Ew&Et&Ev).
    rewrite Hi in Hi'. injection Hi' as <-. rewrite Hv in Hv'. injection Hv' as <-. rewrite Hfe in Hp. simpl in Hp.
    apply perform_spec in Hp as [(Hle&_) Hp]. destruct HN as (Hk&Hms&Hb&Hl&HF).
    assert (Hown : x_fv w' !! u_fence h = Some tv').
    { apply lookup_lt_Some in Hv as Hlt. rewrite Ev. destruct (_ <? _)%nat; [apply lookup_app_l_Some|]; by apply list_lookup_insert. }
    assert (Hbt : bnd w' (t_cur tv')).
    { destruct HN' as (_&_&Hb'&_). by destruct (Forall_lookup_1 _ _ _ _ Hb' Hown). }
    assert (Hlast : forall k t m, hist k w !! t = Some m -> (v_pos k (t_cur tv) <= t)%nat ->
      set_counter k (m_val m) (x_urc w) = x_urc w /\ m_val m = counter k (x_urc w) /\ last (hist k w) = Some m).
    { intros k t0 m Hm Ht. destruct (hok_last k w Hk) as (m'&Hm'&Em). apply lookup_lt_Some in Hm as Hlt.
      assert (t0 = (length (hist k w) - 1)%nat) as -> by (destruct k; simpl in *; lia).
      rewrite Hm' in Hm. injection Hm as <-. rewrite Em. split; [apply set_same|]. split; [done|].
      rewrite last_lookup, <- Hm'. f_equal. lia. }
    assert (Hkeep : x_strong w1 = x_strong w -> x_weak w1 = x_weak w -> kn w' (u_fence h)).
    { intros E1 E2. exists tv'. split; [done|]. rewrite Es, Ew, E1, E2. destruct Hbt as [B1 B2], Hle as (L1&L2&_).
      rewrite Es, E1 in B1. rewrite Ew, E2 in B2. lia. }
    rewrite Eu.
    assert (Hld : forall k o, loaded k o t tv w (ustep la) tv' w1 ->
      (forall m c1, hist k w !! t = Some m -> ustep la (set_counter k (m_val m) (x_urc w)) = Some c1 -> counter k c1 = m_val m) ->
      ustep la (x_urc w) = Some (x_urc w1) /\ kn w' (u_fence h)).
    { intros k o (m&c1&Hm&Ht&Hgo&E&E1&E2&_) Hc. specialize (Hc m c1 Hm Hgo).
      destruct (Hlast k t m Hm Ht) as (S1&S2&_). rewrite S1 in Hgo. split; [|by apply Hkeep].
      rewrite Hgo, E, <- S2, <- Hc. by rewrite set_same. }
    assert (Hwr : forall k m', written k tv w tv' w1 m' -> kn w' (u_fence h)).
    { intros k m' (E1&_&B0&E2). exists tv'. split; [done|]. destruct Hbt as [B1 B2], Hle as (L1&L2&_). rewrite Es, Ew in *.
      destruct k; simpl in *; rewrite E1, E2, ?app_length in *; simpl in *; lia. }
    destruct (action_l la (u_pc h)) as [|k o|k o fo|k o|k] eqn:Ea; simpl in Hp.
    - destruct Hp as (Hgo&E1&E2). split; [done|by apply Hkeep].
    - eapply (Hld k o); [done|]. intros m c1 Hm Hgo.
      rewrite (other_counter _ _ _ h k Hgo); [by rewrite counter_same|by rewrite hs_set_counter|by rewrite Ea|by rewrite Ea].
    - destruct Hp as [[Hp (m0&c0&Hm0&Hgo0&Ec0)]|(m&m'&Hm&Hgo&_&Hw&_)].
      + eapply (Hld k fo); [done|]. intros m c1 Hm Hgo. congruence.
      + split; [|by eapply Hwr]. destruct (hok_last k w Hk) as (m1&Hm1&Em1).
        assert (m1 = m) as ->. { rewrite last_lookup in Hm. replace (Nat.pred (length (hist k w))) with (length (hist k w) - 1)%nat in Hm by lia. congruence. }
        by rewrite Em1, set_same in Hgo.
    - destruct Hp as (Hgo&m'&Hw). split; [done|by eapply Hwr].
    - destruct Hp as (Hgo&E1&E2). split; [done|by apply Hkeep].
  Qed.
End ord_bounds.
