(** Every step and every run. *)
From Verif Require Export ArcOrdProofs5.
From Coq Require Import ZifyBool ZifyNat ZifyN.

Section ord_inv.
  Context {PR : Profile} {T : Type}.
  Notation conf := (aconf T).
  Notation wconf := (wconf T).
  Implicit Types (c : conf) (w : wconf) (h : ahandle) (x : xpc) (tv : tview) (hv : hview).
  Notation L c := (happened is_leak c).
  Ltac hap := autorewrite with hap; simpl; rewrite ?N.add_0_r; try lia.

  Lemma noPB' c i h : PB c -> a_hs c !! i = Some h -> owns_x (h_ex h) = true -> False.
  Proof.
    intros (j&y&Hj&He&Ha&_) Hi Ho. destruct (decide (i = j)) as [->|Hne].
    - rewrite Hi in Hj. injection Hj as ->. simpl in Ho. by destruct y.
    - by rewrite (Ha _ _ Hne Hi) in Ho.
  Qed.

  (** Nothing changes but the log. *)
  Lemma VA_same w w' :
    VA w -> a_hs (w_arc w') = a_hs (w_arc w) -> w_hv w' = w_hv w -> w_strong w' = w_strong w -> w_weak w' = w_weak w ->
    w_trace w' = w_trace w -> L (w_arc w') = L (w_arc w) -> VA w'.
  Proof.
    intros HVA E1 E2 E3 E4 E5 E6. unfold VA, cover, fresh, wrote, nofree, full, race_free, at_, top in *.
    rewrite E1, E2, E3, E4, E5, E6. done.
  Qed.
  Lemma VB_same w w' :
    VB w -> a_hs (w_arc w') = a_hs (w_arc w) -> w_hv w' = w_hv w -> w_strong w' = w_strong w -> w_weak w' = w_weak w ->
    w_trace w' = w_trace w -> VB w'.
  Proof.
    intros HVA E1 E2 E3 E4 E5. unfold VB, nofree, race_free, at_, top in *.
    rewrite E1, E2, E3, E4, E5. done.
  Qed.
  Lemma shape_same w w' :
    shape w -> a_hs (w_arc w') = a_hs (w_arc w) -> w_hv w' = w_hv w -> w_strong w' = w_strong w -> w_weak w' = w_weak w ->
    a_strong (w_arc w') = a_strong (w_arc w) -> a_weak (w_arc w') = a_weak (w_arc w) -> shape w'.
  Proof. intros HVA E1 E2 E3 E4 E5 E6. unfold shape, at_ in *. rewrite E1, E2, E3, E4, E5, E6. done. Qed.

  (** *** While the value is alive *)
  Lemma begin_s_VA w w' i (c0 : scall) (t : nat) :
    PA (w_arc w) -> shape w -> VA w -> asize (w_arc w) + 4 <= usize_max ->
    wstep (WStep (LBeginS i c0) t) w = Some w' -> WI w' /\ calm (w_arc w) (w_arc w').
  Proof.
    intros HPA Hsh HVA Hsz Hst. unfold wstep in Hst.
    destruct (astep (LBeginS i c0) (w_arc w)) as [c'|] eqn:Ha; [|done]. simpl in Hst.
    destruct (w_hv w !! i) as [hv|] eqn:Hiv; [|done]. simpl in Hst. injection Hst as <-.
    destruct (PA_step _ _ _ HPA Ha Hsz) as (HP&Hc1&Hc2&Hc3). split; [|done].
    simpl in Ha. destruct (a_hs (w_arc w) !! i) as [[x sh]|] eqn:Hi; [|done]. destruct x; try done. injection Ha as <-.
    apply lookup_lt_Some in Hi as Hil. pose proof Hsh as (Hlen&Hlc&Hs1&Hs2).
    assert (Hat : at_ w i (AHandle XHeld sh) hv) by done.
    pose proof (Hlc _ _ _ Hat) as Hcl. simpl in Hcl.
    assert (Hhl : forall V, hle (HV (hv_own hv) (hv_calls hv ++ [TV (t_cur (hv_own hv)) v_none])) V -> hle hv V).
    { intros V [H1 H2]. simpl in H1, H2. split; [done|]. intros k tv Hk. apply (H2 k).
      apply lookup_lt_Some in Hk as Hkl. by rewrite lookup_app_l. }
    split.
    - eapply (shape_upd w _ i _ hv (AHandle XHeld (sh ++ [begin_shared c0])) (HV (hv_own hv) (hv_calls hv ++ [TV (t_cur (hv_own hv)) v_none])) [] []); try done; simpl.
      + by rewrite app_nil_r.
      + by rewrite app_nil_r.
      + rewrite !app_length, Hcl. done.
      + by left.
    - left. split.
      { destruct HP as [?|HB]; [done|]. exfalso. eapply (noPB' _ i _ HB); [|by instantiate (1 := AHandle XHeld (sh ++ [begin_shared c0]))].
        simpl. by apply list_lookup_insert. }
      eapply (VA_upd w _ i _ hv (AHandle XHeld (sh ++ [begin_shared c0])) (HV (hv_own hv) (hv_calls hv ++ [TV (t_cur (hv_own hv)) v_none])) [] [] None (hv_own hv)); try done; simpl.
      + by rewrite app_nil_r.
      + by rewrite app_nil_r.
      + left. split; [done|]. intros _. exact Hhl.
      + intros HL0. split; [done|]. intros V m m' Hm Hm' HV Hh. specialize (Hh eq_refl). split; [congruence|]. split; [by apply Hhl|done].
      + intros k old tv Hk Hc. right. apply lookup_app_Some in Hk as [Hk|[_ Hk]].
        * apply lookup_lt_Some in Hk as Hkl. rewrite lookup_app_l in Hc by lia. exists k, old, tv.
          split; [done|]. split; [done|apply vle_refl].
        * apply list_lookup_singleton_Some in Hk as [_ Hk]. by destruct c0.
      + by rewrite app_nil_r.
      + intros _ k tv Hk. apply lookup_app_Some in Hk as [Hk|[_ Hk]].
        * right. exists k, tv. split; [done|apply vle_refl].
        * left. apply list_lookup_singleton_Some in Hk as [_ <-]. apply vle_refl.
      + by left.
  Qed.

  Lemma begin_x_VA w w' i (c0 : xcall) (t : nat) :
    PA (w_arc w) -> shape w -> VA w -> asize (w_arc w) + 4 <= usize_max ->
    wstep (WStep (LBeginX i c0) t) w = Some w' -> WI w' /\ calm (w_arc w) (w_arc w').
  Proof.
    intros HPA Hsh HVA Hsz Hst. unfold wstep in Hst.
    destruct (astep (LBeginX i c0) (w_arc w)) as [c'|] eqn:Ha; [|done]. simpl in Hst. injection Hst as <-.
    destruct (PA_step _ _ _ HPA Ha Hsz) as (HP&Hc1&Hc2&Hc3). split; [|done].
    simpl in Ha. destruct (a_hs (w_arc w) !! i) as [[x sh]|] eqn:Hi; [|done]. destruct x, sh; try done. injection Ha as Ha.
    apply lookup_lt_Some in Hi as Hil. pose proof Hsh as (Hlen&Hlc&Hs1&Hs2).
    destruct (w_hv w !! i) as [hv|] eqn:Hiv; [|apply lookup_ge_None in Hiv; lia].
    assert (Hat : at_ w i held hv) by done. pose proof (calls_nil _ _ _ _ Hsh Hat) as Hcn.
    assert (Ehs : a_hs c' = <[i := AHandle (begin_excl c0) []]> (a_hs (w_arc w))) by (rewrite <- Ha; by destruct c0).
    split.
    - eapply (shape_upd w _ i _ hv (AHandle (begin_excl c0) []) hv [] []); try done; simpl.
      + by rewrite app_nil_r.
      + by rewrite app_nil_r, list_insert_id.
      + by rewrite Hcn.
      + by left.
      + rewrite <- Ha. by destruct c0.
    - left. split.
      { destruct HP as [?|(j&y&Hj&He&_)]; [done|]. exfalso. rewrite Ehs in Hj. destruct (decide (j = i)) as [->|Hne].
        - rewrite list_lookup_insert in Hj by done. injection Hj as <-. by destruct c0.
        - rewrite list_lookup_insert_ne in Hj by done. destruct HPA as (_&_&_&_&Hl&_).
          pose proof (Forall_lookup_1 _ _ _ _ Hl Hj) as [He' _]. simpl in He'. congruence. }
      eapply (VA_upd w _ i _ hv (AHandle (begin_excl c0) []) hv [] [] None (hv_own hv)); try done; simpl.
      + by rewrite app_nil_r.
      + by rewrite app_nil_r, list_insert_id.
      + left. by split.
      + intros HL0. rewrite <- Ha in HL0. destruct c0; simpl in HL0.
        5:{ revert HL0. hap. }
        all: split; [done|]; intros V m m' Hm Hm' HV Hh; specialize (Hh eq_refl); split; [congruence|by split].
      + by rewrite app_nil_r.
      + intros _ k tv Hk. by rewrite Hcn in Hk.
      + by destruct c0.
      + by left.
  Qed.

  Lemma weakdrop_WI w w' t :
    WI w -> wstep (WStep LWeakDrop t) w = Some w' -> WI w' /\ calm (w_arc w) (w_arc w').
  Proof.
    intros (Hsh&HP) Hst. unfold wstep in Hst.
    destruct (astep LWeakDrop (w_arc w)) as [c'|] eqn:Ha; [|done]. simpl in Hst. injection Hst as <-.
    simpl in Ha. destruct (_ <? _); [|done]. injection Ha as <-. split.
    - split; [by eapply shape_same|]. destruct HP as [[HA HV]|[[HB HV]|[HC HV]]].
      + left. split.
        * unfold PA in *. simpl. hap. done.
        * eapply VA_same; try done. simpl. hap.
      + right. left. split; [|by eapply VB_same].
        destruct HB as (i&x&HB). exists i, x. simpl. hap. done.
      + right. right. split; [|done]. unfold PC in *. simpl. hap. done.
    - split; [simpl; hap|]. split; [simpl; hap|]. unfold asize. simpl. hap.
  Qed.

  Lemma end_mut_VA w w' i y t :
    PA (w_arc w) -> shape w -> VA w -> asize (w_arc w) + 4 <= usize_max ->
    wstep (WStep (LEndMut i y) t) w = Some w' -> WI w' /\ calm (w_arc w) (w_arc w').
  Proof.
    intros HPA Hsh HVA Hsz Hst. unfold wstep in Hst.
    destruct (w_hv w !! i) as [hv|] eqn:Hiv; [|done]. cbn [mbind option_bind] in Hst.
    destruct (perform (action_x XMut) t (hv_own hv) w (astep (LEndMut i y))) as [[tv' w1]|] eqn:Hpf; [|done].
    cbn [mbind option_bind] in Hst. injection Hst as <-.
    pose proof (perform_spec _ _ _ _ _ _ _ Hpf) as [G [Ha (Es&Ew)]]. 
    destruct (PA_step _ _ _ HPA Ha Hsz) as (HP&Hc1&Hc2&Hc3). split; [|done].
    pose proof HPA as (Hd&Hf&_). simpl in Ha. destruct (a_hs (w_arc w) !! i) as [[x sh]|] eqn:Hi; [|done]. destruct x, sh; try done.
    assert (Hv : val_ok (w_arc w) = true) by (unfold val_ok; by rewrite Hf, Hd).
    unfold checked in Ha. rewrite Hv in Ha. injection Ha as Earc. apply lookup_lt_Some in Hi as Hil.
    assert (Hat : at_ w i (AHandle XMut []) hv) by done.
    assert (Ehs : a_hs (w_arc w1) = <[i := held]> (a_hs (w_arc w))) by (by rewrite <- Earc).
    assert (Hsw : (exists m, last (w_strong w1) = Some m /\ m_val m = a_strong (w_arc w1)) /\
      (exists m, last (w_weak w1) = Some m /\ m_val m = a_weak (w_arc w1))).
    { apply (shape_plain w); try done; by rewrite <- Earc. }
    split.
    - destruct Hsw. eapply shape_excl; try done. by destruct G as (_&?&_).
    - left. split.
      + destruct HP as [?|HB]; [done|]. exfalso. simpl in HB. eapply (noPB' _ i _ HB); [|by instantiate (1 := held)].
        rewrite Ehs. by apply list_lookup_insert.
      + eapply (VA_excl w w1 i XMut XHeld); try done.
        * rewrite <- Earc. done.
        * by left.
  Qed.

  Lemma count_VA w w' i l t :
    PA (w_arc w) -> shape w -> VA w ->
    wstep (WCount i l t) w = Some w' -> WI w' /\ calm (w_arc w) (w_arc w').
  Proof.
    intros HPA Hsh HVA Hst. unfold wstep in Hst.
    destruct (a_hs (w_arc w) !! i) as [h|] eqn:Hi; [|done]. destruct h as [x sh]. destruct x; try done.
    destruct (w_hv w !! i) as [hv|] eqn:Hiv; [|done]. cbn [mbind option_bind] in Hst.
    destruct (perform (ALoad l SeqCst) t _ w _) as [[tv' w1]|] eqn:Hpf; [|done].
    cbn [mbind option_bind] in Hst. injection Hst as <-.
    pose proof (perform_spec _ _ _ _ _ _ _ Hpf) as [G Hld]. cbn [performed kind_of] in G, Hld.
    pose proof G as (G1&G2&G3&G4&G5).
    pose proof HPA as (Hd&Hf&_). assert (Hat : at_ w i (AHandle XHeld sh) hv) by done.
    pose proof Hld as (m&c1&Ht&Hpos&Hgo&Earc&Es&Ew&_).
    assert (exists e, neutral e = true /\ w_arc w1 = say e (w_arc w)) as (e&Hne&Earc').
    { injection Hgo as <-. assert (Hm : mem_ok (set_counter l (m_val m) (w_arc w)) = true) by (unfold mem_ok; destruct l; simpl; by rewrite Hf).
      unfold checked in Earc. rewrite Hm in Earc. destruct l; eexists; (split; [|rewrite Earc; unfold say; simpl; by destruct (w_arc w)]); done. }
    pose proof Hsh as (Hlen&Hlc&_). pose proof (Hlc _ _ _ Hat) as Hcl. apply lookup_lt_Some in Hiv as Hil.
    assert (Hsw : (exists m, last (w_strong w1) = Some m /\ m_val m = a_strong (w_arc w1)) /\
      (exists m, last (w_weak w1) = Some m /\ m_val m = a_weak (w_arc w1))).
    { apply (shape_plain w); try done; by rewrite Earc'. }
    assert (Hhl : forall V, hle (HV tv' (hv_calls hv)) V -> hle hv V).
    { intros V [H1 H2]. simpl in H1, H2. split; [by eapply vle_trans|done]. }
    split.
    - split.
      + eapply (shape_upd w _ i _ hv (AHandle XHeld sh) (HV tv' (hv_calls hv)) [] []); try done; simpl.
        * rewrite app_nil_r, Earc'. simpl. by rewrite list_insert_id.
        * by rewrite app_nil_r, G2.
        * by left.
      + left. split.
        { simpl. rewrite Earc'. by apply PA_neutral. }
        eapply (VA_upd w _ i _ hv (AHandle XHeld sh) (HV tv' (hv_calls hv)) [] [] (Some KAtomic) (hv_own hv)); try done; simpl.
        * rewrite app_nil_r, Earc'. simpl. by rewrite list_insert_id.
        * by rewrite app_nil_r, G2.
        * left. split; [done|]. intros _. exact Hhl.
        * intros HL0. split.
          { rewrite Earc', hap_say in HL0. lia. }
          intros V m0 m' Hm Hm' HV Hh. specialize (Hh eq_refl). split; [congruence|]. split; [by apply Hhl|].
          intros Htop. apply G4; [done|]. by destruct Hh.
        * intros k old tv Hk Hc. right. exists k, old, tv. split; [done|]. split; [done|apply vle_refl].
        * intros _. left. apply vle_refl.
        * intros _ k tv Hk. right. exists k, tv. split; [done|apply vle_refl].
        * by left.
    - simpl. rewrite Earc'. unfold calm. rewrite !hap_say, asize_neutral by done.
      destruct e; simpl in *; done || (split; [|split]; hap).
  Qed.

  Lemma PA_wstep l w w' :
    PA (w_arc w) -> shape w -> VA w -> asize (w_arc w) + 4 <= usize_max ->
    wstep l w = Some w' -> WI w' /\ calm (w_arc w) (w_arc w').
  Proof.
    intros HPA Hsh HVA Hsz Hst. destruct l as [[i c0|i c0|i k flag|i flag|i y|i|] t|i l t].
    - by eapply begin_s_VA.
    - by eapply begin_x_VA.
    - unfold wstep in Hst. destruct (a_hs (w_arc w) !! i) as [h|] eqn:Hi; [|done]. cbn [mbind option_bind] in Hst.
      destruct (h_sh h !! k) as [s|] eqn:Hk; [|done]. cbn [mbind option_bind] in Hst.
      destruct (w_hv w !! i) as [hv|] eqn:Hiv; [|done]. cbn [mbind option_bind] in Hst.
      destruct (hv_calls hv !! k) as [tv|] eqn:Hc; [|done]. cbn [mbind option_bind] in Hst.
      destruct (perform _ t _ w _) as [[tv' w1]|] eqn:Hpf; [|done]. cbn [mbind option_bind] in Hst. injection Hst as <-.
      change (w_arc (after_shared i k h hv tv' w w1)) with (w_arc w1). by eapply shared_VA.
    - unfold wstep in Hst. destruct (a_hs (w_arc w) !! i) as [h|] eqn:Hi; [|done]. cbn [mbind option_bind] in Hst.
      destruct (w_hv w !! i) as [hv|] eqn:Hiv; [|done]. cbn [mbind option_bind] in Hst.
      destruct (perform _ t _ w _) as [[tv' w1]|] eqn:Hpf; [|done]. cbn [mbind option_bind] in Hst. injection Hst as <-.
      destruct h as [x sh]. pose proof HPA as (_&_&_&_&Hl&_). pose proof (Forall_lookup_1 _ _ _ _ Hl Hi) as [_ Hh].
      assert (sh = []) as ->.
      { assert (x = XHeld \/ x <> XHeld) as [->|Hx] by (destruct x; (by left) || (by right)); [|by apply Hh]. exfalso.
        pose proof (perform_spec _ _ _ _ _ _ _ Hpf) as [_ [Ha _]]. simpl in Ha. by rewrite Hi in Ha. }
      change (w_arc (set_hv (<[i := HV tv' (hv_calls hv)]> (w_hv w1)) w1)) with (w_arc w1). by eapply excl_VA.
    - by eapply end_mut_VA.
    - done.
    - eapply weakdrop_WI; [|done]. split; [done|]. by left.
    - by eapply count_VA.
  Qed.

  (** *** After the last count was given up *)
  Lemma ending_hs i x flag c c1 :
    ending x = true -> a_hs c !! i = Some (AHandle x []) -> step_excl i x flag c = Some c1 ->
    exists x', a_hs c1 = <[i := AHandle x' []]> (a_hs c).
  Proof.
    intros He Hi Hx. destruct x; try done; simpl in Hx; injection Hx as <-; unfold checked; repeat case_match; simpl.
    all: try (eexists; reflexivity).
    all: eexists; symmetry; by apply list_insert_id.
  Qed.
  Lemma fenced_le f tv : vle (t_cur tv) (t_cur (fenced f tv)).
  Proof. destruct f as [o|]; simpl; [|apply vle_refl]. destruct (acquires o); [apply vjoin_l|apply vle_refl]. Qed.

  Lemma ending_wstep w i x hv flag t tv' w1 :
    PB (w_arc w) -> shape w -> VB w -> at_ w i (AHandle x []) hv -> ending x = true ->
    perform (action_x x) t (fenced (fence_x x) (hv_own hv)) w (astep (LEx i flag)) = Some (tv', w1) ->
    happened is_lost (w_arc w1) = 0 ->
    WI (set_hv (<[i := HV tv' (hv_calls hv)]> (w_hv w1)) w1) /\ calm (w_arc w) (w_arc w1).
  Proof.
    intros HPB Hsh HVB Hat He Hpf Hlost. pose proof Hat as [Hi Hiv].
    destruct HVB as (Hnf&Hra&Hvb). pose proof (Hvb _ _ _ Hat He) as Htop. simpl in Htop.
    pose proof (perform_spec _ _ _ _ _ _ _ Hpf) as [G Hperf]. clear Hpf.
    pose proof G as (G1&G2&G3&G4&G5).
    assert (Hf : a_freed (w_arc w) = false) by (by destruct HPB as (?&?&_&_&_&_&_&_&Hf&_)).
    assert (Hm : mem_ok (w_arc w) = true) by (unfold mem_ok; by rewrite Hf).
    assert (Hms : forall n, mem_ok (set_strong n (w_arc w)) = true) by done.
    assert (Hmw : forall n, mem_ok (set_weak n (w_arc w)) = true) by done.
    assert (Hex : forall l n, astep (LEx i flag) (set_counter l n (w_arc w)) = step_excl i x flag (set_counter l n (w_arc w))).
    { intros. apply excl_lookup. by rewrite hs_set. }
    (* it is a step of [ArcModel] *)
    assert (Hgo : step_excl i x flag (w_arc w) = Some (w_arc w1) /\
      ((exists m, last (w_strong w1) = Some m /\ m_val m = a_strong (w_arc w1)) /\
       (exists m, last (w_weak w1) = Some m /\ m_val m = a_weak (w_arc w1)))).
    { destruct x; try done; cbn [action_x performed] in Hperf.
      - destruct Hperf as [Hgo (Es&Ew)]. rewrite (excl_lookup _ _ _ _ Hi) in Hgo. split; [done|].
        simpl in Hgo. injection Hgo as Hgo. apply (shape_plain w); try done; rewrite <- Hgo; unfold checked; by repeat case_match.
      - pose proof Hperf as (m&c1&Ht&Hpos&Hgo&Earc&Es&Ew&_). pose proof (top_last LWeak _ _ _ _ Htop Ht Hpos) as Hl1.
        pose proof (last_val LWeak _ _ _ Hsh Ht Hl1) as Hmv. rewrite Hex, Hmv, set_counter_same in Hgo.
        assert (Ec : counter LWeak c1 = counter LWeak (w_arc w)).
        { simpl in Hgo. unfold checked in Hgo. rewrite Hm in Hgo. injection Hgo as <-. done. }
        rewrite <- Ec, set_counter_same in Earc. split; [by rewrite Earc|]. eapply shape_loaded; [done|exact Hperf|].
        rewrite Earc. simpl in Hgo. unfold checked in Hgo. rewrite Hm in Hgo. by injection Hgo as <-.
      - destruct Hperf as [Hgo (Es&Ew)]. rewrite (excl_lookup _ _ _ _ Hi) in Hgo. split; [done|].
        simpl in Hgo. injection Hgo as Hgo. apply (shape_plain w); try done; rewrite <- Hgo; unfold checked; by repeat case_match.
      - destruct Hperf as [Hgo (Es&Ew)]. rewrite (excl_lookup _ _ _ _ Hi) in Hgo. split; [done|].
        simpl in Hgo. injection Hgo as Hgo. apply (shape_plain w); try done; rewrite <- Hgo; unfold checked; by repeat case_match.
      - pose proof Hperf as (m&c1&Ht&Hpos&Hgo&Earc&Es&Ew&_). pose proof (top_last LWeak _ _ _ _ Htop Ht Hpos) as Hl1.
        pose proof (last_val LWeak _ _ _ Hsh Ht Hl1) as Hmv. rewrite Hex, Hmv, set_counter_same in Hgo.
        assert (Ec : counter LWeak c1 = counter LWeak (w_arc w)).
        { simpl in Hgo. unfold checked in Hgo. rewrite Hm in Hgo. injection Hgo as <-. done. }
        rewrite <- Ec, set_counter_same in Earc. split; [by rewrite Earc|]. eapply shape_loaded; [done|exact Hperf|].
        rewrite Earc. simpl in Hgo. unfold checked in Hgo. rewrite Hm in Hgo. by injection Hgo as <-.
      - destruct Hperf as [Hgo (Es&Ew)]. rewrite (excl_lookup _ _ _ _ Hi) in Hgo. split; [done|].
        simpl in Hgo. injection Hgo as Hgo. apply (shape_plain w); try done; rewrite <- Hgo; unfold checked; by repeat case_match.
      - destruct Hperf as [Hgo (Es&Ew)]. rewrite (excl_lookup _ _ _ _ Hi) in Hgo. split; [done|].
        simpl in Hgo. injection Hgo as Hgo. apply (shape_plain w); try done; rewrite <- Hgo; unfold checked; by repeat case_match.
      - destruct Hperf as [Hgo (Es&Ew)]. rewrite (excl_lookup _ _ _ _ Hi) in Hgo. split; [done|].
        simpl in Hgo. injection Hgo as Hgo. apply (shape_plain w); try done; rewrite <- Hgo; unfold checked; by repeat case_match.
      - destruct Hperf as [[_ (m&c1&_&Hgo&Hcm)]|(m&m'&Hlast&Hgo&Hne&HW&_)].
        { rewrite Hex in Hgo. simpl in Hgo. unfold checked in Hgo. rewrite Hms in Hgo. injection Hgo as <-.
          simpl in Hcm. by destruct (wsub_ne (m_val m)). }
        pose proof (last_val' LStrong _ _ Hsh Hlast) as Hmv. rewrite Hex, Hmv, set_counter_same in Hgo.
        split; [done|]. eapply shape_written; [done|exact HW|].
        simpl in Hgo. unfold checked in Hgo. rewrite Hm in Hgo. by injection Hgo as <-. }
    destruct Hgo as [Hgo [Hs1 Hs2]].
    assert (Ha : astep (LEx i flag) (w_arc w) = Some (w_arc w1)) by (by rewrite (excl_lookup _ _ _ _ Hi)).
    destruct (PB_step _ _ _ HPB Ha Hlost) as (HP&Hc1&Hc2&Hc3). split; [|done].
    destruct (ending_hs _ _ _ _ _ He Hi Hgo) as [x' Ehs]. apply lookup_lt_Some in Hi as Hil. apply lookup_lt_Some in Hiv as Hil2.
    assert (Hrf : race_free w1).
    { destruct (kind_of (action_x x)) as [k|] eqn:Ek; simpl in G3.
      - eapply race_free_snoc; [exact Hra|exact G3|]. intros e a0 He0 _. simpl. by eapply top_in.
      - rewrite app_nil_r in G3. unfold race_free. by rewrite G3. }
    split; [by eapply shape_excl|]. right. destruct HP as [HB|HC]; [left|by right]. split; [done|].
    split; [|split; [done|]].
    - intros e a H0. simpl in H0. rewrite G3 in H0. apply lookup_app_Some in H0 as [H0|[_ H0]]; [by eapply Hnf|].
      destruct (kind_of (action_x x)) as [k|] eqn:Ek; [|done]. apply list_lookup_singleton_Some in H0 as [_ <-]. simpl.
      intros ->. destruct HB as (j&y&_&_&_&_&_&_&_&_&_&_&_&_&Hfree&_). revert Hfree.
      destruct x; try done; simpl in Hgo; unfold checked in Hgo; rewrite Hm in Hgo; injection Hgo as <-; hap.
    - intros j h1 hv1 [Hj1 Hj2] He1. simpl in Hj1, Hj2. rewrite Ehs in Hj1. rewrite G2 in Hj2.
      assert (Ht1 : vle (top w1) (t_cur tv')).
      { apply G4; [|apply vle_refl]. by eapply vle_trans. }
      destruct (decide (j = i)) as [->|Hne].
      + rewrite list_lookup_insert in Hj2 by done. injection Hj2 as <-. simpl.
        eapply vle_trans; [|apply fenced_le]. done.
      + exfalso. rewrite list_lookup_insert_ne in Hj1 by done. destruct HPB as (i0&y&Hi0&He0&Ha0&_).
        destruct (decide (j = i0)) as [->|Hne0].
        * pose proof (Ha0 i (AHandle x []) (not_eq_sym Hne) Hi) as [= ->]. done.
        * by rewrite (Ha0 _ _ Hne0 Hj1) in He1.
  Qed.

  Lemma PB_wstep l w w' :
    PB (w_arc w) -> shape w -> VB w -> wstep l w = Some w' -> happened is_lost (w_arc w') = 0 ->
    WI w' /\ calm (w_arc w) (w_arc w').
  Proof.
    intros HPB Hsh HVB Hst Hlost. pose proof HPB as (i0&x0&Hi0&He0&Ha0&_).
    assert (Hh : forall i h, a_hs (w_arc w) !! i = Some h -> i = i0 /\ h = AHandle x0 [] \/ h = gone).
    { intros i h Hi. destruct (Nat.eq_dec i i0) as [->|Hne]; [left; split; [done|congruence]|right; by eapply Ha0]. }
    destruct l as [[i c0|i c0|i k flag|i flag|i y|i|] t|i l t]; unfold wstep in Hst.
    - simpl in Hst. destruct (a_hs (w_arc w) !! i) as [h|] eqn:Hi; [|done].
      destruct (Hh _ _ Hi) as [[_ ->]| ->]; [|done]. by destruct x0.
    - simpl in Hst. destruct (a_hs (w_arc w) !! i) as [h|] eqn:Hi; [|done].
      destruct (Hh _ _ Hi) as [[_ ->]| ->]; [|done]. by destruct x0.
    - destruct (a_hs (w_arc w) !! i) as [h|] eqn:Hi; [|done]. cbn [mbind option_bind] in Hst.
      by destruct (Hh _ _ Hi) as [[_ ->]| ->].
    - destruct (a_hs (w_arc w) !! i) as [h|] eqn:Hi; [|done]. cbn [mbind option_bind] in Hst.
      destruct (w_hv w !! i) as [hv|] eqn:Hiv; [|done]. cbn [mbind option_bind] in Hst.
      destruct (perform _ t _ w _) as [[tv' w1]|] eqn:Hpf; [|done]. cbn [mbind option_bind] in Hst. injection Hst as <-.
      destruct (Hh _ _ Hi) as [[-> ->]| ->].
      + change (w_arc (set_hv (<[i0 := HV tv' (hv_calls hv)]> (w_hv w1)) w1)) with (w_arc w1). by eapply ending_wstep.
      + exfalso. pose proof (perform_spec _ _ _ _ _ _ _ Hpf) as [_ [Ha _]]. simpl in Ha. by rewrite Hi in Ha.
    - destruct (w_hv w !! i) as [hv|] eqn:Hiv; [|done]. cbn [mbind option_bind] in Hst.
      destruct (perform _ t _ w _) as [[tv' w1]|] eqn:Hpf; [|done].
      exfalso. pose proof (perform_spec _ _ _ _ _ _ _ Hpf) as [_ [Ha _]]. simpl in Ha.
      destruct (a_hs (w_arc w) !! i) as [h|] eqn:Hi; [|done].
      destruct (Hh _ _ Hi) as [[_ ->]| ->]; [|done]. by destruct x0.
    - done.
    - eapply (weakdrop_WI _ _ t); [|done]. split; [done|]. right. by left.
    - destruct (a_hs (w_arc w) !! i) as [h|] eqn:Hi; [|done].
      destruct (Hh _ _ Hi) as [[_ ->]| ->]; [|done]. by destruct x0.
  Qed.

  Lemma PC_wstep l w w' :
    PC (w_arc w) -> shape w -> race_free w -> wstep l w = Some w' -> WI w' /\ calm (w_arc w) (w_arc w').
  Proof.
    intros HPC Hsh Hra Hst. pose proof HPC as [Hg _]. unfold all_gone in Hg. rewrite Forall_lookup in Hg.
    destruct l as [[i c0|i c0|i k flag|i flag|i y|i|] t|i l t]; unfold wstep in Hst.
    - simpl in Hst. destruct (a_hs (w_arc w) !! i) as [h|] eqn:Hi; [|done]. by rewrite (Hg _ _ Hi) in Hst.
    - simpl in Hst. destruct (a_hs (w_arc w) !! i) as [h|] eqn:Hi; [|done]. by rewrite (Hg _ _ Hi) in Hst.
    - destruct (a_hs (w_arc w) !! i) as [h|] eqn:Hi; [|done]. cbn [mbind option_bind] in Hst.
      by rewrite (Hg _ _ Hi) in Hst.
    - destruct (a_hs (w_arc w) !! i) as [h|] eqn:Hi; [|done]. cbn [mbind option_bind] in Hst.
      destruct (w_hv w !! i) as [hv|] eqn:Hiv; [|done]. cbn [mbind option_bind] in Hst.
      destruct (perform _ t _ w _) as [[tv' w1]|] eqn:Hpf; [|done]. pose proof (Hg _ _ Hi) as ->.
      exfalso. pose proof (perform_spec _ _ _ _ _ _ _ Hpf) as [_ [Ha _]]. simpl in Ha. by rewrite Hi in Ha.
    - destruct (w_hv w !! i) as [hv|] eqn:Hiv; [|done]. cbn [mbind option_bind] in Hst.
      destruct (perform _ t _ w _) as [[tv' w1]|] eqn:Hpf; [|done].
      exfalso. pose proof (perform_spec _ _ _ _ _ _ _ Hpf) as [_ [Ha _]]. simpl in Ha.
      destruct (a_hs (w_arc w) !! i) as [h|] eqn:Hi; [|done]. by rewrite (Hg _ _ Hi) in Ha.
    - done.
    - eapply (weakdrop_WI _ _ t); [|done]. split; [done|]. right. by right.
    - destruct (a_hs (w_arc w) !! i) as [h|] eqn:Hi; [|done]. by rewrite (Hg _ _ Hi) in Hst.
  Qed.

  Lemma WI_step l w w' :
    WI w -> wstep l w = Some w' -> asize (w_arc w) + 4 <= usize_max -> happened is_lost (w_arc w') = 0 ->
    WI w' /\ calm (w_arc w) (w_arc w').
  Proof.
    intros (Hsh&[[HA HV]|[[HB HV]|[HC HV]]]) Hst Hsz Hlost.
    - by eapply PA_wstep.
    - by eapply PB_wstep.
    - by eapply PC_wstep.
  Qed.

  (** *** Runs *)
  Lemma perform_log a t tv w go tv' w' :
    (forall c c', go c = Some c' -> exists k, a_log c' = a_log c ++ k) ->
    perform a t tv w go = Some (tv', w') -> exists k, a_log (w_arc w') = a_log (w_arc w) ++ k.
  Proof.
    intros Hgo Hpf. apply perform_spec in Hpf as [_ H]. assert (Hsl : forall l n c, a_log (set_counter l n c) = a_log c) by (by intros []).
    destruct a as [|l o|l o f|l o|k]; simpl in H.
    - destruct H as [H _]. by apply Hgo.
    - destruct H as (m&c1&_&_&H&->&_). apply Hgo in H as [k H]. exists k. rewrite !Hsl in *. done.
    - destruct H as [[(m&c1&_&_&H&->&_) _]|(m&m'&_&H&_)]; apply Hgo in H as [k H]; exists k; rewrite ?Hsl in *; done.
    - destruct H as [H _]. by apply Hgo.
    - destruct H as [H _]. by apply Hgo.
  Qed.
  Lemma wstep_log l w w' : wstep l w = Some w' -> exists k, a_log (w_arc w') = a_log (w_arc w) ++ k.
  Proof.
    intros Hst. destruct l as [[i c0|i c0|i k flag|i flag|i y|i|] t|i l t]; unfold wstep in Hst.
    - destruct (astep _ _) as [c'|] eqn:Ha; [|done]. cbn [mbind option_bind] in Hst. destruct (w_hv w !! i); [|done].
      injection Hst as <-. by eapply astep_log.
    - destruct (astep _ _) as [c'|] eqn:Ha; [|done]. injection Hst as <-. by eapply astep_log.
    - destruct (a_hs (w_arc w) !! i) as [h|] eqn:Hi; [|done]. cbn [mbind option_bind] in Hst.
      destruct (h_sh h !! k) as [s|] eqn:Hk; [|done]. cbn [mbind option_bind] in Hst.
      destruct (w_hv w !! i) as [hv|] eqn:Hiv; [|done]. cbn [mbind option_bind] in Hst.
      destruct (hv_calls hv !! k) as [tv|] eqn:Hc; [|done]. cbn [mbind option_bind] in Hst.
      destruct (perform _ t _ w _) as [[tv' w1]|] eqn:Hpf; [|done]. cbn [mbind option_bind] in Hst. injection Hst as <-.
      eapply perform_log in Hpf; [exact Hpf|]. intros. by eapply astep_log.
    - destruct (a_hs (w_arc w) !! i) as [h|] eqn:Hi; [|done]. cbn [mbind option_bind] in Hst.
      destruct (w_hv w !! i) as [hv|] eqn:Hiv; [|done]. cbn [mbind option_bind] in Hst.
      destruct (perform _ t _ w _) as [[tv' w1]|] eqn:Hpf; [|done]. injection Hst as <-.
      eapply perform_log in Hpf; [exact Hpf|]. intros. by eapply astep_log.
    - destruct (w_hv w !! i) as [hv|] eqn:Hiv; [|done]. cbn [mbind option_bind] in Hst.
      destruct (perform _ t _ w _) as [[tv' w1]|] eqn:Hpf; [|done]. injection Hst as <-.
      eapply perform_log in Hpf; [exact Hpf|]. intros. by eapply astep_log.
    - done.
    - destruct (astep _ _) as [c'|] eqn:Ha; [|done]. injection Hst as <-. by eapply astep_log.
    - destruct (a_hs (w_arc w) !! i) as [h|] eqn:Hi; [|done]. destruct h as [[] sh]; try done.
      destruct (w_hv w !! i) as [hv|] eqn:Hiv; [|done]. cbn [mbind option_bind] in Hst.
      destruct (perform _ t _ w _) as [[tv' w1]|] eqn:Hpf; [|done]. injection Hst as <-.
      eapply perform_log in Hpf; [exact Hpf|]. intros c c' [= <-]. unfold checked. destruct (mem_ok c); by eexists.
  Qed.
  Lemma wrun_log ls w w' : wrun ls w = Some w' -> exists k, a_log (w_arc w') = a_log (w_arc w) ++ k.
  Proof.
    revert w. induction ls as [|l ls IH]; simpl; intros w H.
    - injection H as <-. exists []. by rewrite app_nil_r.
    - destruct (wstep l w) as [w1|] eqn:E; [|done]. destruct (IH _ H) as [k Hk].
      destruct (wstep_log _ _ _ E) as [k1 Hk1]. exists (k1 ++ k). by rewrite app_assoc, <- Hk1.
  Qed.
  Lemma wrun_mono f ls w w' : wrun ls w = Some w' -> happened f (w_arc w) <= happened f (w_arc w').
  Proof. intros H. destruct (wrun_log _ _ _ H) as [k E]. unfold happened. rewrite E, cnt_app. lia. Qed.
  Lemma wrun_app ls1 ls2 w w' :
    wrun (ls1 ++ ls2) w = Some w' <-> exists w1, wrun ls1 w = Some w1 /\ wrun ls2 w1 = Some w'.
  Proof.
    revert w. induction ls1 as [|l ls1 IH]; simpl; intros w.
    - split; [intros H; by exists w|by intros (?&[= <-]&?)].
    - destruct (wstep l w); [apply IH|]. split; [done|by intros (?&?&?)].
  Qed.

  Lemma WI_run ls w w' :
    WI w -> wrun ls w = Some w' -> asize (w_arc w) + llen ls + 4 <= usize_max -> happened is_lost (w_arc w') = 0 ->
    WI w' /\ happened is_bad (w_arc w') = happened is_bad (w_arc w) /\
    happened is_overflow (w_arc w') = happened is_overflow (w_arc w) /\ asize (w_arc w') <= asize (w_arc w) + llen ls.
  Proof.
    revert w. induction ls as [|l ls IH]; simpl; intros w HI H Hsz Hlost.
    - injection H as <-. split; [done|]. split; [done|]. split; [done|lia].
    - destruct (wstep l w) as [w1|] eqn:E; [|done].
      destruct (WI_step _ _ _ HI E) as [HI1 (C1&C2&C3)]; [lia| |].
      { pose proof (wrun_mono is_lost _ _ _ H). lia. }
      destruct (IH w1 HI1 H) as (?&?&?&?); [lia|done|]. split; [done|]. split; [congruence|]. split; [congruence|lia].
  Qed.

  Lemma WI_init (v : T) : WI (w_init v).
  Proof.
    destruct (AInv_init v) as (_&_&H). split.
    - split; [done|]. split; [|split; by eexists].
      intros i h hv [H1 H2]. simpl in H1, H2. apply list_lookup_singleton_Some in H1 as [_ <-].
      by apply list_lookup_singleton_Some in H2 as [_ <-].
    - left. split.
      { destruct H as [HA|[HB|HC]]; [done| |].
        - exfalso. by eapply (noPB' _ 0%nat _ HB).
        - exfalso. destruct HC as [Hg _]. unfold all_gone in Hg. rewrite Forall_lookup in Hg. by pose proof (Hg 0%nat held eq_refl). }
      assert (Hone : forall i h hv, at_ (w_init v) i h hv -> h = held /\ hv = HV (TV (View 0 0 {[0%nat]}) v_none) []).
      { intros i h hv [H1 H2]. simpl in H1, H2. apply list_lookup_singleton_Some in H1 as [_ <-].
        by apply list_lookup_singleton_Some in H2 as [_ <-]. }
      split; [|split; [|split; [|split; [|split]]]].
      + intros _ V m _ _ Hall. destruct (Hall 0%nat held _ ltac:(split; reflexivity) eq_refl) as [H1 _].
        eapply vle_trans; [|exact H1]. unfold vle. simpl. split; [lia|]. split; [lia|]. set_solver.
      + intros t m H1 _ Hlt. simpl in Hlt. lia.
      + intros e a He _ i h hv Hat _. destruct (Hone _ _ _ Hat) as [_ ->]. simpl in *.
        apply list_lookup_singleton_Some in He as [-> _]. split; [set_solver|by intros ? ? ?].
      + intros e a He. simpl in He. by apply list_lookup_singleton_Some in He as [_ <-].
      + intros i h hv Hat. by destruct (Hone _ _ _ Hat) as [-> _].
      + intros e1 e2 a1 a2 Hlt H1 H2. simpl in H2. apply list_lookup_singleton_Some in H2 as [-> _]. lia.
  Qed.

  Lemma ord_inv (v : T) ls w : ord_reached v ls w -> happened is_lost (w_arc w) = 0 ->
    WI w /\ happened is_bad (w_arc w) = 0 /\ happened is_overflow (w_arc w) = 0 /\ asize (w_arc w) <= llen ls + 1.
  Proof.
    intros [Hl Hr] Hlost. destruct (WI_run ls _ w (WI_init v) Hr) as (?&?&?&Hz); [|done|].
    - change (asize (w_arc (w_init v))) with 1. lia.
    - change (asize (w_arc (w_init v))) with 1 in Hz. split; [done|]. split; [done|]. split; [done|lia].
  Qed.
End ord_inv.
