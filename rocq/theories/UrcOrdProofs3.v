(** Invariant of [Urc] under the release/acquire rules, as long as the counter of strong fences was not set to zero. *)
From Verif Require Export UrcOrdProofs2.
From Coq Require Import ZifyBool ZifyNat ZifyN.

Section ord_inv.
  Context {PR : Profile} {T : Type}.
  Notation conf := (uconf T).
  Notation xconf := (xconf T).
  Implicit Types (c : conf) (w : xconf) (h : uhandle) (tv : tview) (l : ulabel T) (f : nat) (x : fence).

  Definition seen w e f : Prop := exists tv, x_fv w !! f = Some tv /\ e ∈ v_seen (t_cur tv).

  Record XI (n : N) w : Prop := {
    xi_u : UInv n (x_urc w);
    xi_len : length (x_fv w) = length (u_fences (x_urc w));
    xi_last : forall k m, last (hist k w) = Some m -> m_val m = counter k (x_urc w);
    (** A thread that holds a counted fence reads one only as the latest value. *)
    xi_pos : forall f tv t m, is_open (x_urc w) f -> x_fv w !! f = Some tv -> x_strong w !! t = Some m ->
      (v_strong (t_cur tv) <= t)%nat -> (S t < length (x_strong w))%nat -> 2 <= m_val m;
    xi_wr : forall f e a, is_open (x_urc w) f -> x_trace w !! e = Some a -> ac_kind a = KWrite -> seen w e f;
    xi_cov : A (x_urc w) = 0 -> forall e a, x_trace w !! e = Some a -> value_access a ->
      (exists f, is_open (x_urc w) f /\ seen w e f) \/
      (exists j h, u_hs (x_urc w) !! j = Some h /\ u_pc h = UDSub /\ seen w e (u_fence h)) \/
      (exists m, last (x_strong w) = Some m /\ e ∈ v_seen (m_view m));
    xi_sole : forall i h e a, u_hs (x_urc w) !! i = Some h -> sole_sf (u_pc h) = true ->
      x_trace w !! e = Some a -> value_access a -> seen w e (u_fence h);
    xi_free : forall e a, x_trace w !! e = Some a -> ac_kind a <> KFree;
    xi_race : no_race (x_trace w)
  }.

  Lemma XI_init (y : T) : XI 1 (x_init y).
  Proof.
    constructor; simpl.
    - apply init_inv.
    - done.
    - by intros [] m [= <-].
    - intros f tv t m _ _ Hm _ Ht. lia.
    - intros f e a (x&Hx&_) He _. destruct f; [|done]. destruct e; [|done]. eexists. split; [done|]. simpl. set_solver.
    - intros _ e a He _. left. exists 0%nat. split; [by eexists|]. destruct e; [|done]. eexists. split; [done|]. simpl. set_solver.
    - intros i h e a Hi. destruct i; [|done]. injection Hi as <-. done.
    - intros e a He. destruct e; [|done]. by injection He as <-.
    - intros e1 e2 a1 a2 Hlt He1 He2. destruct e2; [lia|done].
  Qed.

  Lemma seen_le w w' e f tv tv' :
    x_fv w !! f = Some tv -> seen w e f -> x_fv w' !! f = Some tv' -> vle (t_cur tv) (t_cur tv') -> seen w' e f.
  Proof. intros H1 (tv0&H2&He) H3 Hle. rewrite H1 in H2. injection H2 as <-. eexists. split; [done|]. by eapply vle_in. Qed.

  (** What a step consists of. *)
  Lemma xstep_inv l t w w' :
    xstep l t w = Some w' ->
    exists h tv tv' w1, u_hs (x_urc w) !! who l = Some h /\ x_fv w !! u_fence h = Some tv /\
      perform (action_l l (u_pc h)) t (fenced (fence_l l (u_pc h)) tv) w (ustep l) = Some (tv', w1) /\
      x_urc w' = x_urc w1 /\ x_strong w' = x_strong w1 /\ x_weak w' = x_weak w1 /\ x_trace w' = x_trace w1 /\
      x_fv w' = if (length (u_fences (x_urc w)) <? length (u_fences (x_urc w')))%nat
                then <[u_fence h := tv']> (x_fv w) ++ [TV (t_cur tv') v_none] else <[u_fence h := tv']> (x_fv w).
  Proof.
    unfold xstep. destruct (u_hs (x_urc w) !! who l) as [h|] eqn:Hi; [|done]. cbn [mbind option_bind].
    destruct (x_fv w !! u_fence h) as [tv|] eqn:Hv; [|done]. cbn [mbind option_bind].
    destruct (perform _ t _ w _) as [[tv' w1]|] eqn:Hpf; [|done]. cbn [mbind option_bind]. intros [= <-].
    exists h, tv, tv', w1. split; [done|]. split; [done|]. split; [exact Hpf|]. done.
  Qed.
  Lemma fenced_le o tv : vle (t_cur tv) (t_cur (fenced o tv)).
  Proof. destruct o as [o|]; simpl; [destruct (acquires o); simpl|]; auto with vv. Qed.

  (** The configuration afterwards comes from a step of [UrcModel], whatever the counters were taken to be. *)
  Lemma performed_step a t tv w go tv' w1 :
    performed a t tv w go tv' w1 ->
    exists c0 c1, go c0 = Some c1 /\ u_hs c0 = u_hs (x_urc w) /\ u_fences c0 = u_fences (x_urc w) /\ u_log c0 = u_log (x_urc w) /\
      u_hs (x_urc w1) = u_hs c1 /\ u_fences (x_urc w1) = u_fences c1 /\ u_log (x_urc w1) = u_log c1.
  Proof.
    assert (Hld : forall (l : loc) o, loaded l o t tv w go tv' w1 -> exists c0 c1, go c0 = Some c1 /\ u_hs c0 = u_hs (x_urc w) /\
      u_fences c0 = u_fences (x_urc w) /\ u_log c0 = u_log (x_urc w) /\
      u_hs (x_urc w1) = u_hs c1 /\ u_fences (x_urc w1) = u_fences c1 /\ u_log (x_urc w1) = u_log c1).
    { intros l o (m&c1&_&_&Hgo&E&_). exists (set_counter l (m_val m) (x_urc w)), c1. rewrite E.
      rewrite !hs_set_counter, !fs_set_counter, !log_set_counter. done. }
    destruct a as [|l o|l o f|l o|k]; simpl.
    - intros (H&_). by exists (x_urc w), (x_urc w1).
    - apply Hld.
    - intros [[H _]|(m&m'&_&Hgo&_)]; [by apply (Hld l f)|]. exists (set_counter l (m_val m) (x_urc w)), (x_urc w1).
      by rewrite !hs_set_counter, !fs_set_counter, !log_set_counter.
    - intros (H&_). by exists (x_urc w), (x_urc w1).
    - intros (H&_). by exists (x_urc w), (x_urc w1).
  Qed.

  Lemma hap_eq q c c' : u_log c = u_log c' -> happened q c = happened q c'.
  Proof. unfold happened. by intros ->. Qed.

  (** A latest value of one is the only one that can be read. *)
  Lemma read_one n w f tv t m :
    XI n w -> is_open (x_urc w) f -> x_fv w !! f = Some tv -> x_strong w !! t = Some m -> (v_strong (t_cur tv) <= t)%nat ->
    m_val m = u_sf (x_urc w) \/ 2 <= m_val m.
  Proof.
    intros HX Ho Hv Hm Ht. apply lookup_lt_Some in Hm as Hl. destruct (decide (S t = length (x_strong w))) as [E|E].
    - left. apply (xi_last _ _ HX LStrong). simpl. rewrite last_lookup, <- E. done.
    - right. eapply (xi_pos _ _ HX); try done. lia.
  Qed.

  (** *** The invariant of [UrcModel] *)
  Lemma counters_same c c' : set_counter LStrong (u_sf c) c' = c' \/ u_sf c' <> u_sf c.
  Proof. destruct (decide (u_sf c' = u_sf c)) as [E|E]; [left|by right]. rewrite <- E. by destruct c'. Qed.

  (** Loads of [strong_fence] do not change it. *)
  Lemma load_keeps l c c' h :
    ustep l c = Some c' -> u_hs c !! who l = Some h -> action_l l (u_pc h) = ALoad LStrong Acquire -> u_sf c' = u_sf c.
  Proof.
    intros Hst Hi Ha. destruct h as [f p]. destruct l as [i k|i k|i flag|i y|i|i|i]; simpl in Ha, Hi, Hst; try done; rewrite Hi in Hst.
    - destruct p; try done. destruct (idle f c); [|done]. injection Hst as <-. destruct k; try done.
      unfold call1, with_fence, checked. repeat case_match; done.
    - unfold step in Hst. simpl in Hst. destruct p; try done; injection Hst as <-;
        unfold with_fence, checked, drop_in_place; repeat case_match; done.
  Qed.

  Lemma open_of n c i h : UInv n c -> u_hs c !! i = Some h -> sc (u_pc h) || wc (u_pc h) = true -> is_open c (u_fence h).
  Proof. intros HI Hi H. destruct (counted_open _ _ _ _ HI Hi H) as (x&Hx&Fx). by exists x. Qed.

  (** The steps that read [strong_fence] are made by handles whose fence is counted. *)
  Lemma strong_open l c h (f0 : ord) :
    u_hs c !! who l = Some h -> zpath (u_pc h) = false ->
    action_l l (u_pc h) = ALoad LStrong Acquire \/ action_l l (u_pc h) = ARmw LStrong Acquire f0 ->
    ustep l c <> None -> sc (u_pc h) || wc (u_pc h) = true.
  Proof.
    intros Hi Hz Ha Hst. destruct h as [f p]. simpl in *.
    destruct l as [i k|i k|i flag|i y|i|i|i]; simpl in Ha, Hi, Hst; try (by destruct Ha); rewrite ?Hi in Hst.
    - destruct p; try done.
    - destruct p; try done; by destruct Ha.
  Qed.

  Lemma XI_urc n l t w w' :
    XI n w -> n + 8 <= usize_max -> xstep l t w = Some w' -> happened is_zeroing (x_urc w') = 0 -> UInv (n + 1) (x_urc w').
  Proof.
    intros HX Hn Hst Hz. apply xstep_inv in Hst as (h&tv&tv'&w1&Hi&Hv&Hpf&Eu&_). rewrite Eu in Hz |- *.
    apply perform_spec in Hpf as [_ Hp]. pose proof (xi_u _ _ HX) as HI.
    destruct (i_h _ _ HI _ _ Hi) as [Hfl Hzp].
    assert (Hlast : forall k m, last (hist k w) = Some m -> set_counter k (m_val m) (x_urc w) = x_urc w).
    { intros k m Hm. rewrite (xi_last _ _ HX _ _ Hm). apply set_counter_id. }
    assert (Hweak : forall k o, loaded LWeak o t k w (ustep l) tv' w1 -> UInv (n + 1) (x_urc w1)).
    { intros k o (m&c1&_&_&Hgo&E&_). rewrite E. apply UInv_wf. eapply inv_ustep; [by apply UInv_wf, HI|done|exact Hgo|].
      rewrite E in Hz. by rewrite hap_set_counter in Hz. }
    assert (Hstrong : forall o, (action_l l (u_pc h) = ALoad LStrong Acquire \/ action_l l (u_pc h) = ARmw LStrong Acquire Relaxed) ->
      loaded LStrong o t (fenced (fence_l l (u_pc h)) tv) w (ustep l) tv' w1 ->
      (forall m c1, x_strong w !! t = Some m -> ustep l (set_sf (m_val m) (x_urc w)) = Some c1 -> u_sf c1 = m_val m) -> UInv (n + 1) (x_urc w1)).
    { intros o Ha (m&c1&Hm&Ht&Hgo&E&_) Hk. simpl in Hm, Hgo, E.
      specialize (Hk m c1 Hm Hgo).
      assert (Hop : is_open (x_urc w) (u_fence h)).
      { eapply open_of; [done|exact Hi|]. eapply (strong_open l (set_sf (m_val m) (x_urc w))); [exact Hi|done|exact Ha|by rewrite Hgo]. }
      destruct (read_one n w (u_fence h) tv t m) as [Ev|Ev]; try done.
      { simpl in Ht. pose proof (fenced_le (fence_l l (u_pc h)) tv) as (Hle&_). lia. }
      - assert (Es : set_sf (m_val m) (x_urc w) = x_urc w) by (rewrite Ev; by destruct (x_urc w)). rewrite Es in Hgo.
        assert (Ec : x_urc w1 = c1). { rewrite E, <- Ev, <- Hk. by destruct c1. }
        rewrite Ec in Hz |- *. by eapply inv_ustep.
      - rewrite E. eapply stale_step; [exact HI|exact Hi|exact Ha| |exact Hgo|done]. lia. }
    assert (Hupd : forall k o, updated k o (fenced (fence_l l (u_pc h)) tv) w (ustep l) tv' w1 -> UInv (n + 1) (x_urc w1)).
    { intros k o (m&m'&Hm&Hgo&_). rewrite (Hlast _ _ Hm) in Hgo. by eapply inv_ustep. }
    destruct (action_l l (u_pc h)) as [|k o|k o f|k o|k] eqn:Ea; simpl in Hp.
    - destruct Hp as [Hp _]. by eapply inv_ustep.
    - destruct k; [|by eapply Hweak]. assert (o = Acquire) as ->.
      { destruct l as [? []| | | | | |]; simpl in Ea; try discriminate Ea; [by injection Ea as <-|]. destruct (u_pc h); try discriminate Ea; by injection Ea as <-. }
      eapply (Hstrong _ (or_introl eq_refl) Hp). intros m c1 _ Hgo. by rewrite (load_keeps _ _ _ _ Hgo Hi Ea).
    - destruct Hp as [[Hp (m0&c0&Hm0&Hgo0&Ec0)]|Hp]; [|by eapply Hupd].
      destruct k; [|by eapply Hweak]. simpl in Hm0, Hgo0, Ec0.
      assert (Hd : {o = Acquire} + {o <> Acquire}) by decide equality. destruct Hd as [->|Hno].
      + assert (f = Relaxed) as ->.
        { destruct l as [? []| | | | | |]; simpl in Ea; try discriminate Ea. destruct (u_pc h); try discriminate Ea; by injection Ea as <-. }
        eapply (Hstrong _ (or_intror eq_refl) Hp). intros m c1 Hm Hgo. rewrite Hm0 in Hm. injection Hm as <-.
        rewrite Hgo0 in Hgo. injection Hgo as <-. done.
      + (* a decrement always changes the counter *)
        exfalso. destruct l as [? []| |i flag| | | |]; simpl in Ea; try discriminate Ea. destruct h as [fh p].
        destruct p; simpl in Ea; try discriminate Ea; injection Ea as <- <-; try done.
        simpl in Hgo0, Hi. rewrite Hi in Hgo0. unfold step in Hgo0. simpl in Hgo0.
        unfold checked in Hgo0. change (mem_ok (set_sf (m_val m0) (x_urc w))) with (mem_ok (x_urc w)) in Hgo0.
        rewrite (inv_mem _ _ HI) in Hgo0.
        assert (Hw : wsub (m_val m0) 1 = m_val m0).
        { transitivity (u_sf c0); [|done]. destruct (m_val m0 =? 1); injection Hgo0 as <-; done. }
        unfold wsub in Hw. change (2 ^ 64) with 18446744073709551616 in Hw.
        clear -Hw. destruct (N.eq_dec (m_val m0) 0) as [E|E]; [rewrite E in Hw; done|].
        replace (m_val m0 + 18446744073709551616 - 1) with (m_val m0 - 1 + 1 * 18446744073709551616) in Hw by lia.
        rewrite N.mod_add in Hw by done.
        pose proof (N.mod_le (m_val m0 - 1) 18446744073709551616 ltac:(done)). lia.
    - destruct Hp as [Hp _]. by eapply inv_ustep.
    - destruct Hp as [Hp _]. by eapply inv_ustep.
  Qed.
End ord_inv.
