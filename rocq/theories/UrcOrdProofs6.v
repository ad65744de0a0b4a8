(** Every run of [UrcModel] is a run of [UrcOrdModel] in which the loads return the latest values. *)
From Verif Require Export UrcOrdProofs5.
From Coq Require Import ZifyBool ZifyNat ZifyN.

Section ord_sc.
  Context {PR : Profile} {T : Type}.
  Notation conf := (uconf T).
  Notation xconf := (xconf T).
  Implicit Types (c : conf) (w : xconf) (h : uhandle) (tv : tview) (v : view) (l : loc).

  Definition oth (l : loc) : loc := match l with LStrong => LWeak | LWeak => LStrong end.
  Definition bnd w v : Prop := (v_strong v < length (x_strong w))%nat /\ (v_weak v < length (x_weak w))%nat.
  Definition bt w tv : Prop := bnd w (t_cur tv) /\ bnd w (t_read tv).
  Definition msgs w : Prop := forall l m, m ∈ hist l w -> bnd w (m_view m).
  Definition hok w : Prop :=
    (exists m, last (x_strong w) = Some m /\ m_val m = u_sf (x_urc w)) /\
    (exists m, last (x_weak w) = Some m /\ m_val m = u_wf (x_urc w)).
  Definition longer w w' : Prop :=
    (length (x_strong w) <= length (x_strong w'))%nat /\ (length (x_weak w) <= length (x_weak w'))%nat.

  Lemma bnd_le w w' v : longer w w' -> bnd w v -> bnd w' v.
  Proof. intros [H1 H2] [H3 H4]. split; lia. Qed.
  Lemma bt_le w w' tv : longer w w' -> bt w tv -> bt w' tv.
  Proof. intros Hl [H1 H2]. split; by eapply bnd_le. Qed.
  Lemma bnd_join w v1 v2 : bnd w v1 -> bnd w v2 -> bnd w (vjoin v1 v2).
  Proof. intros [H1 H2] [H3 H4]. split; simpl; lia. Qed.
  Lemma bnd_at w l n v : bnd w v -> (n < length (hist l w))%nat -> bnd w (v_at l n v).
  Proof. intros [H1 H2] H. destruct l; split; simpl in *; lia. Qed.
  Lemma hok_pos l w : hok w -> (0 < length (hist l w))%nat.
  Proof. intros [(m&Hm&_) (m'&Hm'&_)]. destruct l; simpl; [destruct (x_strong w)|destruct (x_weak w)]; simpl in *; done || lia. Qed.
  Lemma hok_last l w : hok w -> exists m, hist l w !! (length (hist l w) - 1)%nat = Some m /\ m_val m = counter l (x_urc w).
  Proof.
    intros [(m&Hm&E) (m'&Hm'&E')]. rewrite last_lookup in Hm, Hm'.
    destruct l; simpl; [exists m|exists m']; (split; [|done]); rewrite <- ?Hm, <- ?Hm'; f_equal; lia.
  Qed.
  Lemma bnd_none w : hok w -> bnd w v_none.
  Proof. intros H. split; [apply (hok_pos LStrong)|apply (hok_pos LWeak)]; done. Qed.
  Lemma bt_made w tv : hok w -> bt w tv -> bt w (made w tv).
  Proof.
    intros Hk [H1 H2]. split; [|done]. apply bnd_join; [done|]. split; simpl; [apply (hok_pos LStrong)|apply (hok_pos LWeak)]; done.
  Qed.
  Lemma bt_got w l o t m tv : bt w tv -> (t < length (hist l w))%nat -> bnd w (m_view m) -> bt w (got l o t m tv).
  Proof.
    intros [H1 H2] Ht Hm. split; simpl.
    - destruct (acquires o); [apply bnd_join; [|done]|]; by apply bnd_at.
    - by apply bnd_join.
  Qed.
  Lemma set_same l c : set_counter l (counter l c) c = c.
  Proof. by destruct l, c. Qed.
  Lemma bt_fenced w f tv : bt w tv -> bt w (fenced f tv).
  Proof.
    intros [H1 H2]. destruct f as [o|]; simpl; [|done]. destruct (acquires o); [|done]. split; simpl; [by apply bnd_join|done].
  Qed.

  (** What a step may do to the counters. *)
  Definition fx (a : action) c c' : Prop :=
    match a with
    | ARmw l _ _ | AStore l _ => counter (oth l) c' = counter (oth l) c
    | _ => u_sf c' = u_sf c /\ u_wf c' = u_wf c
    end.
  Definition now (a : action) w : nat :=
    match a with ALoad l _ | ARmw l _ _ => (length (hist l w) - 1)%nat | _ => 0%nat end.

  Lemma longer_append l m w : longer w (append l m w).
  Proof. destruct l; split; simpl; rewrite ?app_length; simpl; lia. Qed.
  Lemma append_bnd l m w v : (v_pos l v <= length (hist l w))%nat -> (v_pos (oth l) v < length (hist (oth l) w))%nat -> bnd (append l m w) v.
  Proof. intros H1 H2. destruct l; split; simpl in *; rewrite ?app_length; simpl; lia. Qed.

  Lemma msgs_eq w w' : msgs w -> x_strong w' = x_strong w -> x_weak w' = x_weak w -> msgs w'.
  Proof. intros H E1 E2 l m Hm. unfold bnd. rewrite E1, E2. apply (H l). by destruct l; simpl in *; rewrite <- ?E1, <- ?E2. Qed.
  Lemma bt_eq w w' tv : bt w tv -> x_strong w' = x_strong w -> x_weak w' = x_weak w -> bt w' tv.
  Proof. intros H E1 E2. unfold bt, bnd. by rewrite E1, E2. Qed.
  Lemma msgs_append l m w : msgs w -> bnd (append l m w) (m_view m) -> msgs (append l m w).
  Proof.
    intros H Hm l' m' Hin. destruct (decide (m' = m)) as [->|Hne]; [done|] || idtac.
    assert (m' = m \/ m' ∈ hist l' w) as [->|Hin'].
    { destruct l, l'; simpl in *; try (by right); apply elem_of_app in Hin as [?|?%elem_of_list_singleton]; auto. }
    - done.
    - eapply bnd_le; [apply longer_append|]. by eapply H.
  Qed.

  Definition now_ok tv w c' tv' w' : Prop :=
    x_urc w' = c' /\ x_fv w' = x_fv w /\ hok w' /\ bt w' tv' /\ msgs w' /\ longer w w'.

  Lemma write_now l o tv v0 w w0 c' :
    hok w -> msgs w -> bt w tv -> bnd w v0 -> counter (oth l) c' = counter (oth l) (x_urc w) ->
    x_urc w0 = c' -> x_fv w0 = x_fv w -> x_strong w0 = x_strong w -> x_weak w0 = x_weak w ->
    now_ok tv w c' (TV (v_at l (length (hist l w)) (t_cur tv)) (t_read tv))
      (append l (message l o (length (hist l w)) v0 (v_at l (length (hist l w)) (t_cur tv)) (counter l c')) w0).
  Proof.
    intros Hk Hms [Hb1 Hb2] H0 Hc E1 E2 E3 E4.
    set (n := length (hist l w)). set (m := message _ _ _ _ _ _).
    assert (Hlen : (0 < length (hist l w))%nat) by (by apply hok_pos).
    assert (Hat : forall v, bnd w v -> bnd (append l m w0) (v_at l n v)).
    { intros v [Hv1 Hv2]. apply append_bnd; destruct l; simpl in *; unfold n; rewrite ?E3, ?E4; lia. }
    assert (Hlg : longer w (append l m w0)) by (destruct l; split; simpl; rewrite ?app_length, ?E3, ?E4; simpl; lia).
    split; [by destruct l|]. split; [by destruct l|]. split; [|split; [|split; [|done]]].
    - destruct Hk as [(ms&Hs&Es) (mw&Hw&Ew)]. unfold hok. destruct l; simpl in *; rewrite last_snoc, E1, ?E3, ?E4.
      + split; [by eexists|]. exists mw. by rewrite Hc.
      + split; [|by eexists]. exists ms. by rewrite Hc.
    - split; simpl; [by apply Hat|]. by eapply bnd_le.
    - apply msgs_append; [by eapply msgs_eq|].
      assert (exists V, bnd w V /\ m_view m = v_at l n (vjoin v0 V)) as (V&HV&->).
      { unfold m, message. simpl. destruct (releases o); [exists (t_cur tv)|exists v_none]; (split; [by try apply bnd_none|]); [|done].
        destruct l; unfold vjoin; simpl; f_equal; lia. }
      apply Hat. by apply bnd_join.
  Qed.

  Lemma perform_now a tv w go c' :
    hok w -> msgs w -> bt w tv -> go (x_urc w) = Some c' -> fx a (x_urc w) c' ->
    exists tv' w', perform a (now a w) tv w go = Some (tv', w') /\ now_ok tv w c' tv' w'.
  Proof.
    intros Hk Hms Hb Hgo Hf.
    assert (Hsame : forall w', x_strong w' = x_strong w -> x_weak w' = x_weak w -> longer w w') by
      (intros w' E1 E2; split; rewrite ?E1, ?E2; lia).
    assert (Hkeep : forall w' tv', x_urc w' = c' -> x_fv w' = x_fv w -> x_strong w' = x_strong w -> x_weak w' = x_weak w ->
      u_sf c' = u_sf (x_urc w) -> u_wf c' = u_wf (x_urc w) -> bt w tv' -> now_ok tv w c' tv' w').
    { intros w' tv' E1 E2 E3 E4 E5 E6 Hb'. split; [done|]. split; [done|]. split.
      - unfold hok. rewrite E1, E3, E4, E5, E6. done.
      - split; [by eapply bt_eq|]. split; [by eapply msgs_eq|]. by apply Hsame. }
    destruct a as [|l o|l o f|l o|k]; simpl in Hf; simpl.
    - rewrite Hgo. simpl. eexists _, _. split; [done|]. destruct Hf. by apply Hkeep.
    - destruct (hok_last l w Hk) as (m&Hm&Em). rewrite Hm. simpl.
      assert (Hp : (v_pos l (t_cur tv) <=? length (hist l w) - 1)%nat = true).
      { destruct Hb as [[Hb1 Hb2] _]. destruct l; simpl in *; lia. }
      rewrite Hp, Em, set_same, Hgo. simpl. eexists _, _. split; [done|]. destruct Hf as [F1 F2]. apply Hkeep; simpl; try done.
      + destruct l; simpl; rewrite <- ?F1, <- ?F2; apply (set_same LStrong) || apply (set_same LWeak).
      + apply bt_got; [by apply bt_made| |].
        * pose proof (hok_pos l w Hk). lia.
        * eapply (Hms l). by eapply elem_of_list_lookup_2.
    - destruct (hok_last l w Hk) as (m&Hm&Em). rewrite Hm. simpl.
      assert (Hp : (v_pos l (t_cur tv) <=? length (hist l w) - 1)%nat = true).
      { destruct Hb as [[Hb1 Hb2] _]. destruct l; simpl in *; lia. }
      pose proof (hok_pos l w Hk) as Hpos.
      assert (Hbm : bnd w (m_view m)) by (eapply (Hms l); by eapply elem_of_list_lookup_2).
      rewrite Hp, Em, set_same, Hgo. simpl. destruct (counter l c' =? counter l (x_urc w)) eqn:Ec.
      + apply N.eqb_eq in Ec. eexists _, _. split; [done|]. apply Hkeep; simpl; try done.
        * rewrite <- Ec. apply set_same.
        * by destruct l.
        * by destruct l.
        * apply bt_got; [by apply bt_made|lia|done].
      + assert (El : (S (length (hist l w) - 1) =? length (hist l w))%nat = true) by lia. simpl in El. rewrite El.
        eexists _, _. split; [done|].
        assert (Hbg : bt w (got l o (length (hist l w) - 1) m (made w tv))) by (apply bt_got; [by apply bt_made|lia|done]).
        destruct (write_now l o _ (m_view m) w (record KAtomic tv (set_urc c' w)) c' Hk Hms Hbg Hbm Hf eq_refl eq_refl eq_refl eq_refl)
          as (G1&G2&G3&G4&G5&G6).
        by split.
    - rewrite Hgo. simpl. eexists _, _. split; [done|].
      destruct (write_now l o _ v_none w (record KAtomic tv (set_urc c' w)) c' Hk Hms (bt_made _ _ Hk Hb) (bnd_none _ Hk) Hf eq_refl eq_refl eq_refl eq_refl)
        as (G1&G2&G3&G4&G5&G6).
      by split.
    - rewrite Hgo. simpl. eexists _, _. split; [done|]. destruct Hf. apply Hkeep; try done. by apply bt_made.
  Qed.

  Definition NW w : Prop :=
    hok w /\ msgs w /\ Forall (bt w) (x_fv w) /\ length (x_fv w) = length (u_fences (x_urc w)) /\
    Forall (fun h => (u_fence h < length (u_fences (x_urc w)))%nat) (u_hs (x_urc w)).

  Lemma fx_l (la : ulabel T) c c' h : ustep la c = Some c' -> u_hs c !! who la = Some h -> fx (action_l la (u_pc h)) c c'.
  Proof.
    intros Hst Hi. pose proof (other_counter _ _ _ h LStrong Hst Hi) as Hs. pose proof (other_counter _ _ _ h LWeak Hst Hi) as Hw.
    destruct (action_l la (u_pc h)) as [|l o|l o fo|l o|k]; simpl.
    1,2,5: split; [by apply Hs|by apply Hw].
    all: destruct l; simpl; [by apply Hw|by apply Hs].
  Qed.
  Lemma who_in (la : ulabel T) c c' : ustep la c = Some c' -> exists h, u_hs c !! who la = Some h.
  Proof. intros Hst. destruct la; simpl in *; destruct (u_hs c !! i) as [h|]; try done; by exists h. Qed.

  Ltac cases Hst :=
    lazymatch type of Hst with ustep ?l ?c = Some _ =>
      destruct l; simpl in Hst;
      let i := lazymatch type of Hst with context [u_hs c !! ?i] => i end in
      let f := fresh "f" in let p := fresh "p" in
      destruct (u_hs c !! i) as [[f p]|] eqn:Hi; try done;
      try (unfold step in Hst; simpl in Hst);
      destruct p; try done;
      repeat (case_match; try done); simplify_eq
    end.
  (** Fences are added one at a time; handles belong to fences there are. *)
  Lemma ustep_shape (la : ulabel T) c c' :
    ustep la c = Some c' -> Forall (fun h => (u_fence h < length (u_fences c))%nat) (u_hs c) ->
    (length (u_fences c') = length (u_fences c) \/ length (u_fences c') = S (length (u_fences c))) /\
    Forall (fun h => (u_fence h < length (u_fences c'))%nat) (u_hs c').
  Proof.
    intros Hst HF. cases Hst; pose proof (Forall_lookup_1 _ _ _ _ HF Hi) as Hf; simpl in Hf;
      unfold call1, with_fence, checked, inc_strong, inc_weak, dec_strong, dec_weak, free_fence, drop_in_place; simpl;
      repeat case_match; simplify_eq; simpl; rewrite ?app_length, ?insert_length; simpl.
    all: split; [lia|].
    all: repeat first [done | apply Forall_insert; [|simpl; lia] | apply Forall_app; split | constructor; [simpl; lia|constructor]].
    all: eapply Forall_impl; [exact HF|]; simpl; intros; lia.
  Qed.

  Lemma sc_step (la : ulabel T) w c' :
    NW w -> ustep la (x_urc w) = Some c' -> exists t w', xstep la t w = Some w' /\ x_urc w' = c' /\ NW w'.
  Proof.
    intros (Hk&Hms&Hb&Hl&HF) Hst. destruct (who_in _ _ _ Hst) as [h Hi].
    pose proof (Forall_lookup_1 _ _ _ _ HF Hi) as Hf. simpl in Hf. rewrite <- Hl in Hf.
    destruct (lookup_lt_is_Some_2 _ _ Hf) as [tv Hv]. pose proof (Forall_lookup_1 _ _ _ _ Hb Hv) as Hbt.
    destruct (perform_now (action_l la (u_pc h)) (fenced (fence_l la (u_pc h)) tv) w (ustep la) c') as (tv'&w1&Hp&E1&E2&Hk1&Hbt1&Hms1&Hlg);
      [done|done|by apply bt_fenced|done|by apply fx_l|].
    destruct (ustep_shape _ _ _ Hst HF) as [Hlen HF'].
    eexists (now (action_l la (u_pc h)) w), _. split; [|split].
    - unfold xstep. rewrite Hi. cbn [mbind option_bind]. rewrite Hv. cbn [mbind option_bind]. rewrite Hp. done.
    - done.
    - assert (Hb1 : Forall (bt w1) (<[u_fence h := tv']> (x_fv w))).
      { apply Forall_insert; [|done]. eapply Forall_impl; [exact Hb|]. intros. by eapply bt_le. }
      rewrite E1. split; [|split; [|split; [|split]]].
      + exact Hk1.
      + exact Hms1.
      + simpl. destruct (_ <? _)%nat; [|exact Hb1]. apply Forall_app. split; [exact Hb1|]. constructor; [|constructor].
        destruct Hbt1 as [Hb2 _]. split; [exact Hb2|]. by apply bnd_none.
      + simpl. rewrite E1. destruct Hlen as [E|E]; rewrite E.
        * by rewrite Nat.ltb_irrefl, insert_length.
        * rewrite (proj2 (Nat.ltb_lt _ _)) by lia. rewrite app_length, insert_length. simpl. lia.
      + simpl. by rewrite E1.
  Qed.

  Lemma NW_init (x : T) : NW (x_init x).
  Proof.
    split; [|split; [|split; [|split]]].
    - split; eexists; done.
    - intros l m Hm. destruct l; apply elem_of_list_singleton in Hm as ->; split; simpl; lia.
    - constructor; [|constructor]. split; split; simpl; lia.
    - done.
    - constructor; [simpl; lia|constructor].
  Qed.
  Lemma sc_run ls w c' :
    NW w -> urun ls (x_urc w) = Some c' ->
    exists ls' w', xrun ls' w = Some w' /\ x_urc w' = c' /\ map fst ls' = ls.
  Proof.
    revert w. induction ls as [|l ls IH]; simpl; intros w HN H.
    - injection H as <-. exists [], w. simpl. by split.
    - destruct (ustep l (x_urc w)) as [c1|] eqn:E; [|done].
      destruct (sc_step _ _ _ HN E) as (t&w1&R1&<-&HN1). destruct (IH _ HN1 H) as (l2&w2&R2&E2&Hl2).
      exists ((l, t) :: l2), w2. simpl. rewrite R1, R2, Hl2. done.
  Qed.
End ord_sc.
