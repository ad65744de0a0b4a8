(** Every step while the value is alive. *)
From Verif Require Export ArcOrdProofs3.
From Coq Require Import ZifyBool ZifyNat ZifyN.

Section ord_inv.
  Context {PR : Profile} {T : Type}.
  Notation conf := (aconf T).
  Notation wconf := (wconf T).
  Implicit Types (c : conf) (w : wconf) (h : ahandle) (x : xpc) (tv : tview) (hv : hview).
  Notation L c := (happened is_leak c).
  Ltac hap := autorewrite with hap; simpl; rewrite ?N.add_0_r; try lia.

  Definition WI w : Prop :=
    shape w /\ (PA (w_arc w) /\ VA w \/ PB (w_arc w) /\ VB w \/ PC (w_arc w) /\ race_free w).
  (** Nothing bad is logged, and the counters are bounded by the number of steps. *)
  Definition calm c c' : Prop :=
    happened is_bad c' = happened is_bad c /\ happened is_overflow c' = happened is_overflow c /\ asize c' <= asize c + 1.

  Lemma excl_lookup c i x flag :
    a_hs c !! i = Some (AHandle x []) -> astep (LEx i flag) c = step_excl i x flag c.
  Proof. intros Hi. simpl. by rewrite Hi. Qed.

  (** The counters after an access. *)
  Lemma shape_loaded l o t tv w go tv' w' :
    shape w -> loaded l o t tv w go tv' w' ->
    counter (match l with LStrong => LWeak | LWeak => LStrong end) (w_arc w') =
    counter (match l with LStrong => LWeak | LWeak => LStrong end) (w_arc w) ->
    (exists m, last (w_strong w') = Some m /\ m_val m = a_strong (w_arc w')) /\
    (exists m, last (w_weak w') = Some m /\ m_val m = a_weak (w_arc w')).
  Proof.
    intros (_&_&(ms&Hs&Es)&(mw&Hw&Ew)) (m&c1&_&_&_&E&E1&E2&_) Hc. rewrite E1, E2.
    destruct l; simpl in *.
    - split; [exists ms|exists mw]; (split; [done|]); [rewrite E; simpl; done|congruence].
    - split; [exists ms|exists mw]; (split; [done|]); [congruence|rewrite E; simpl; done].
  Qed.
  Lemma shape_written l tv w tv' w' m' :
    shape w -> written l tv w tv' w' m' ->
    counter (match l with LStrong => LWeak | LWeak => LStrong end) (w_arc w') =
    counter (match l with LStrong => LWeak | LWeak => LStrong end) (w_arc w) ->
    (exists m, last (w_strong w') = Some m /\ m_val m = a_strong (w_arc w')) /\
    (exists m, last (w_weak w') = Some m /\ m_val m = a_weak (w_arc w')).
  Proof.
    intros (_&_&(ms&Hs&Es)&(mw&Hw&Ew)) (E1&E2&_&E4) Hc. destruct l; simpl in *.
    - rewrite E1, E4. split; [exists m'|exists mw]; (split; [by rewrite ?last_snoc|]); congruence.
    - rewrite E1, E4. split; [exists ms|exists m']; (split; [by rewrite ?last_snoc|]); congruence.
  Qed.
  Lemma shape_plain w w' :
    shape w -> w_strong w' = w_strong w -> w_weak w' = w_weak w ->
    a_strong (w_arc w') = a_strong (w_arc w) -> a_weak (w_arc w') = a_weak (w_arc w) ->
    (exists m, last (w_strong w') = Some m /\ m_val m = a_strong (w_arc w')) /\
    (exists m, last (w_weak w') = Some m /\ m_val m = a_weak (w_arc w')).
  Proof. intros (_&_&?&?) -> -> -> ->. done. Qed.

  (** A step of the owner of a handle: what is left to show. *)
  Lemma excl_done w w1 i x x' hv tv' ko :
    PA (w_arc w) -> shape w -> VA w -> at_ w i (AHandle x []) hv -> owns_x x = true ->
    grown ko (hv_own hv) w tv' w1 -> ko <> Some KFree -> ko <> Some KWrite ->
    a_hs (w_arc w1) = <[i := AHandle x' []]> (a_hs (w_arc w)) -> owns_x x' = true ->
    (L (w_arc w1) = 0 -> L (w_arc w) = 0) ->
    (lone x' = true -> vle (top w) (t_cur tv')) ->
    (w_strong w1 = w_strong w \/
     exists m m', last (w_strong w) = Some m /\ w_strong w1 = w_strong w ++ [m'] /\ vle (m_view m) (m_view m') /\
       (length (w_strong w) <= v_strong (t_cur tv'))%nat) ->
    (exists m, last (w_strong w1) = Some m /\ m_val m = a_strong (w_arc w1)) /\
    (exists m, last (w_weak w1) = Some m /\ m_val m = a_weak (w_arc w1)) ->
    (PA (w_arc w1) \/ PB (w_arc w1)) /\ calm (w_arc w) (w_arc w1) ->
    WI (set_hv (<[i := HV tv' (hv_calls hv)]> (w_hv w1)) w1) /\ calm (w_arc w) (w_arc w1).
  Proof.
    intros HPA Hsh HVA Hat Hox G Hnk Hkw Hhs Hox' HL Hlo Hstr [Hs Hw] [HP Hc]. split; [|done].
    pose proof Hat as [Hi _]. apply lookup_lt_Some in Hi as Hil. split.
    - eapply shape_excl; try done. by destruct G as (_&?&_).
    - left. split.
      + destruct HP as [?|HB]; [done|]. exfalso. eapply (noPB _ i x' HB); [|done]. rewrite Hhs. by apply list_lookup_insert.
      + by eapply VA_excl.
  Qed.

  Lemma full_acquired w i x hv tv' m :
    PA (w_arc w) -> shape w -> VA w -> at_ w i (AHandle x []) hv -> owns_x x = true -> a_strong (w_arc w) = 1 ->
    vle (t_cur (hv_own hv)) (t_cur tv') -> last (w_strong w) = Some m -> vle (m_view m) (t_cur tv') ->
    vle (top w) (t_cur tv').
  Proof.
    intros HPA Hsh HVA Hat Hox H1 G1 Hm Hle. pose proof (calls_nil _ _ _ _ Hsh Hat) as Hc.
    pose proof HPA as (Hd&Hf&Hs&Hp&Hl&_). destruct HVA as (Hcov&_). pose proof Hat as [Hi Hiv].
    assert (Hone : owners (a_hs (w_arc w)) = 1 /\ L (w_arc w) = 0).
    { pose proof (owner_pos _ _ _ Hi) as O. rewrite own_goto, Hox in O. lia. }
    destruct Hone as [HO HL]. destruct (alone_one (w_arc w) i _ Hl Hi) as [Ha _]; [rewrite own_goto, Hox; lia|done|].
    apply (Hcov HL _ m Hm Hle). intros j h hv0 [Hj1 Hj2] Ho. destruct (decide (j = i)) as [->|Hne].
    - rewrite Hi in Hj1. rewrite Hiv in Hj2. simplify_eq. split; [done|]. rewrite Hc. by intros ? ? ?.
    - by rewrite (Ha _ _ Hne Hj1) in Ho.
  Qed.

  Lemma excl_VA w i x hv flag t tv' w1 :
    PA (w_arc w) -> shape w -> VA w -> at_ w i (AHandle x []) hv -> asize (w_arc w) + 4 <= usize_max ->
    perform (action_x x) t (fenced (fence_x x) (hv_own hv)) w (astep (LEx i flag)) = Some (tv', w1) ->
    WI (set_hv (<[i := HV tv' (hv_calls hv)]> (w_hv w1)) w1) /\ calm (w_arc w) (w_arc w1).
  Proof.
    intros HPA Hsh HVA Hat Hsz Hpf. pose proof HPA as (Hd&Hf&Hs&Hp&Hl&HK&Hw&Hz&Hlone&Hinc&E1&E2&E3&E4).
    pose proof Hat as [Hi Hiv]. pose proof (Forall_lookup_1 _ _ _ _ Hl Hi) as [He _]. simpl in He.
    pose proof (calls_nil _ _ _ _ Hsh Hat) as Hcn. apply lookup_lt_Some in Hi as Hil.
    assert (Hfx : fenced (fence_x x) (hv_own hv) = hv_own hv) by (destruct x; done). rewrite Hfx in Hpf.
    pose proof (perform_spec _ _ _ _ _ _ _ Hpf) as [G Hperf]. clear Hpf Hfx.
    assert (Hm : mem_ok (w_arc w) = true) by (unfold mem_ok; by rewrite Hf).
    assert (Hv : val_ok (w_arc w) = true) by (unfold val_ok; by rewrite Hf, Hd).
    assert (Hms : forall n, mem_ok (set_strong n (w_arc w)) = true) by done.
    assert (Hmw : forall n, mem_ok (set_weak n (w_arc w)) = true) by done.
    pose proof HVA as (_&Hfr&_&_&Hfu&_).
    assert (Hex : forall l n, astep (LEx i flag) (set_counter l n (w_arc w)) = step_excl i x flag (set_counter l n (w_arc w))).
    { intros. apply excl_lookup. by rewrite hs_set. }
    (* a step of [ArcModel] *)
    assert (Hsc : forall c1, step_excl i x flag (w_arc w) = Some c1 -> (PA c1 \/ PB c1) /\ calm (w_arc w) c1).
    { intros c1 H1. destruct (excl_PA _ _ _ _ _ HPA Hi H1 Hsz) as (?&?&?&?). done. }
    pose proof G as (G1&G2&G3&G4&G5).
    (* the reader of an old value goes on as if it could not go on *)
    assert (Hst : forall x', owns_x x' = true -> lone x' = false -> locks x' = locks x -> owns_x x = true ->
      PA (goto i x' (w_arc w)) /\ asize (goto i x' (w_arc w)) = asize (w_arc w)).
    { intros x' Ho' Hl' Hk' Ho. by eapply PA_goto. }
    assert (Hcg : forall x', PA (goto i x' (w_arc w)) /\ asize (goto i x' (w_arc w)) = asize (w_arc w) ->
      (PA (goto i x' (w_arc w)) \/ PB (goto i x' (w_arc w))) /\ calm (w_arc w) (goto i x' (w_arc w))).
    { intros x' [H1 H2]. split; [by left|]. split; [done|]. split; [done|]. rewrite H2. lia. }
    assert (Hcs : forall x' e, neutral e = true -> PA (goto i x' (w_arc w)) /\ asize (goto i x' (w_arc w)) = asize (w_arc w) ->
      (PA (say e (goto i x' (w_arc w))) \/ PB (say e (goto i x' (w_arc w)))) /\ calm (w_arc w) (say e (goto i x' (w_arc w)))).
    { intros x' e Hn [H1 H2]. split; [left; by apply PA_neutral|]. unfold calm. rewrite !hap_say, asize_neutral, H2 by done.
      destruct e; simpl in *; done || (split; [|split]; hap). }
    destruct x; try done; cbn [action_x performed] in Hperf; simpl in He; cbn [action_x kind_of] in G.
    all: try (destruct Hperf as [H _]; rewrite (excl_lookup _ _ _ _ Hi) in H; done).
    - (* XDrop *)
      destruct Hperf as [[_ (m&c1&_&Hgo&Hcm)]|(m&m'&Hlast&Hgo&Hne&HW&Hmm&Hrel&_&Hrd)].
      { rewrite Hex in Hgo. simpl in Hgo. unfold checked in Hgo. rewrite Hms in Hgo. injection Hgo as <-.
        simpl in Hcm. by destruct (wsub_ne (m_val m)). }
      pose proof (last_val' LStrong _ _ Hsh Hlast) as Hmv. rewrite Hex, Hmv, set_counter_same in Hgo.
      pose proof (Hsc _ Hgo) as [HP Hcalm]. simpl in Hgo. unfold checked in Hgo. rewrite Hm in Hgo.
      injection Hgo as Earc. split; [|done].
      assert (Hsub : wsub (a_strong (w_arc w)) 1 = a_strong (w_arc w) - 1).
      { unfold wsub. assert (a_strong (w_arc w) <= usize_max) by (unfold asize in Hsz; lia).
        rewrite <- (N.mod_small (a_strong (w_arc w) - 1) (2 ^ 64)) by (change (2 ^ 64) with (usize_max + 1); lia).
        replace (a_strong (w_arc w) + 2 ^ 64 - 1) with (a_strong (w_arc w) - 1 + 1 * 2 ^ 64) by lia.
        rewrite N.mod_add by lia. reflexivity. }
      assert (Hshape : shape (set_hv (<[i := HV tv' (hv_calls hv)]> (w_hv w1)) w1)).
      { destruct (shape_written LStrong _ _ _ _ _ Hsh HW) as [? ?]; [rewrite <- Earc; done|].
        eapply shape_excl; [done|done|done| |done|done]. rewrite <- Earc. done. }
      destruct HW as (W1&W2&W3&W4). simpl in W1.
      destruct (N.eqb_spec (a_strong (w_arc w)) 1) as [Eone|Eone].
      + split; [done|]. right. left. split.
        * destruct HP as [HA|HB]; [|done]. exfalso. eapply (noPA _ i XDestroy HA); [|done]. rewrite <- Earc.
          by apply list_lookup_insert.
        * eapply (VB_end w w1 i XDrop XDestroy hv tv' m); try done; [by rewrite <- Earc|].
          simpl. eapply vle_trans; [exact Hrd|]. apply vjoin_r.
      + split; [done|]. left. split.
        * destruct HP as [HA|HB]; [done|]. exfalso. destruct HB as (?&?&_&_&_&_&Hz0&_). rewrite <- Earc in Hz0. simpl in Hz0.
          rewrite Hsub in Hz0. lia.
        * eapply (VA_gone w w1 i XDrop hv tv' m m'); try done; [by rewrite <- Earc|by rewrite <- Earc|by apply Hrel].
    - (* XCas *)
      destruct Hperf as [[Hld (m0&c0&Hm0&Hgo0&Hcm)]|(m&m'&Hlast&Hgo&Hne&HW&Hmm&_&Hacq&Hrd)].
      + pose proof Hld as (m&c1&Ht&Hpos&Hgo&Earc&Es&Ew&_). rewrite Ht in Hm0. injection Hm0 as <-.
        rewrite Hgo in Hgo0. injection Hgo0 as <-. rewrite Hex in Hgo. simpl in Hgo.
        unfold checked in Hgo. rewrite Hms in Hgo.
        destruct (N.eqb_spec (m_val m) 1) as [Eone|Eone].
        { injection Hgo as <-. simpl in Hcm. congruence. }
        injection Hgo as <-. simpl in Earc.
        assert (Earc' : w_arc w1 = say AUnwrapErr (goto i XHeld (w_arc w))).
        { rewrite Earc. unfold set_strong, say, goto, set_h, set_hs. simpl. by destruct (w_arc w). }
        eapply (excl_done w w1 i XCas XHeld); try done.
        * by rewrite Earc'.
        * rewrite Earc'. hap.
        * by left.
        * eapply shape_loaded; [done|exact Hld|]. by rewrite Earc'.
        * rewrite Earc'. apply Hcs; [done|]. by apply Hst.
      + pose proof (last_val' LStrong _ _ Hsh Hlast) as Hmv. rewrite Hex, Hmv, set_counter_same in Hgo.
        pose proof (Hsc _ Hgo) as [HP Hcalm]. simpl in Hgo. unfold checked in Hgo. rewrite Hm in Hgo.
        destruct (N.eqb_spec (a_strong (w_arc w)) 1) as [Eone|Eone].
        * injection Hgo as Earc. split; [|done]. split.
          -- destruct (shape_written LStrong _ _ _ _ _ Hsh HW) as [? ?]; [rewrite <- Earc; done|].
             eapply shape_excl; [done|done|done| |done|done]. rewrite <- Earc. done.
          -- right. left. split.
             ++ destruct HP as [HA|HB]; [|done]. exfalso. eapply (noPA _ i XTake HA); [|done]. rewrite <- Earc.
                by apply list_lookup_insert.
             ++ eapply (VB_end w w1 i XCas XTake hv tv' m); try done; [by rewrite <- Earc|].
                simpl. by apply Hacq.
        * injection Hgo as Earc. rewrite <- Earc in Hne. simpl in Hne, Hmv. congruence.
    - (* XLock *)
      destruct Hperf as [[Hld (m0&c0&Hm0&Hgo0&Hcm)]|(m&m'&Hlast&Hgo&Hne&HW&Hmm&_&Hacq&Hrd)].
      + pose proof Hld as (m&c1&Ht&Hpos&Hgo&Earc&Es&Ew&_). rewrite Ht in Hm0. injection Hm0 as <-.
        rewrite Hgo in Hgo0. injection Hgo0 as <-. rewrite Hex in Hgo. simpl in Hgo.
        unfold checked in Hgo. rewrite Hmw in Hgo.
        destruct (N.eqb_spec (m_val m) 0) as [Eone|Eone].
        { injection Hgo as <-. simpl in Hcm. by rewrite Eone in Hcm. }
        injection Hgo as <-. simpl in Earc.
        assert (Earc' : w_arc w1 = say (AGetMut false) (goto i XHeld (w_arc w))).
        { rewrite Earc. unfold set_weak, say, goto, set_h, set_hs. simpl. by destruct (w_arc w). }
        eapply (excl_done w w1 i XLock XHeld); try done.
        * by rewrite Earc'.
        * rewrite Earc'. hap.
        * by left.
        * eapply shape_loaded; [done|exact Hld|]. by rewrite Earc'.
        * rewrite Earc'. apply Hcs; [done|]. by apply Hst.
      + pose proof (last_val' LWeak _ _ Hsh Hlast) as Hmv. rewrite Hex, Hmv, set_counter_same in Hgo.
        pose proof (Hsc _ Hgo) as HPc. simpl in Hgo. unfold checked in Hgo. rewrite Hm in Hgo.
        destruct (N.eqb_spec (a_weak (w_arc w)) 0) as [Eone|Eone].
        * injection Hgo as Earc. eapply (excl_done w w1 i XLock XLoadS); try done.
          -- by rewrite <- Earc.
          -- by rewrite <- Earc.
          -- left. by destruct HW as (_&_&_&?).
          -- eapply shape_written; [done|exact HW|]. by rewrite <- Earc.
        * injection Hgo as Earc. rewrite <- Earc in Hne. simpl in Hne, Hmv. congruence.
    - (* XLoadS *)
      pose proof Hperf as (m&c1&Ht&Hpos&Hgo&Earc&Es&Ew&Hacq). rewrite Hex in Hgo. simpl in Hgo.
      unfold checked in Hgo. rewrite Hms in Hgo. injection Hgo as <-. simpl in Earc.
      assert (Earc' : w_arc w1 = goto i (XUnlock (m_val m =? 1)) (w_arc w)).
      { rewrite Earc. unfold set_strong, goto, set_h, set_hs. simpl. by destruct (w_arc w). }
      eapply (excl_done w w1 i XLoadS (XUnlock (m_val m =? 1))); try done.
      + by rewrite Earc'.
      + by rewrite Earc'.
      + simpl. intros Eone. apply N.eqb_eq in Eone.
        pose proof (fresh_last _ _ _ _ _ _ Hfr Hat eq_refl Hcn Ht Eone Hpos) as Hl1.
        eapply (full_acquired w i XLoadS hv tv' m); try done.
        * pose proof (last_val LStrong _ _ _ Hsh Ht Hl1) as Hmv. simpl in Hmv. congruence.
        * simpl in Ht. rewrite last_lookup, <- Hl1. done.
        * by apply Hacq.
      + by left.
      + eapply shape_loaded; [done|exact Hperf|]. by rewrite Earc'.
      + rewrite Earc'. destruct (N.eqb_spec (m_val m) 1) as [Eone|Eone].
        * pose proof (fresh_last _ _ _ _ _ _ Hfr Hat eq_refl Hcn Ht Eone Hpos) as Hl1.
          pose proof (last_val LStrong _ _ _ Hsh Ht Hl1) as Hmv. simpl in Hmv.
          apply Hsc. simpl. unfold checked. rewrite Hm, <- Hmv, Eone. done.
        * apply Hcg. by apply Hst.
    - (* XUnlock *)
      destruct Hperf as [Hgo (m'&HW)]. rewrite (excl_lookup _ _ _ _ Hi) in Hgo.
      pose proof (Hsc _ Hgo) as HPc. simpl in Hgo. unfold checked in Hgo. rewrite Hm in Hgo. injection Hgo as Earc.
      eapply (excl_done w w1 i (XUnlock unique) (if unique then XMut else XHeld)); try done.
      + by rewrite <- Earc.
      + by destruct unique.
      + rewrite <- Earc. hap.
      + intros Hlo. eapply vle_trans; [|exact G1]. apply (Hfu _ _ _ Hat). by destruct unique.
      + left. by destruct HW as (_&_&_&?).
      + eapply shape_written; [done|exact HW|]. by rewrite <- Earc.
    - (* XM0 *)
      pose proof Hperf as (m&c1&Ht&Hpos&Hgo&Earc&Es&Ew&Hacq). rewrite Hex in Hgo. simpl in Hgo.
      unfold checked in Hgo. rewrite Hms in Hgo. injection Hgo as <-. simpl in Earc.
      assert (Earc' : w_arc w1 = goto i (XM1 (m_val m)) (w_arc w)).
      { rewrite Earc. unfold set_strong, goto, set_h, set_hs. simpl. by destruct (w_arc w). }
      eapply (excl_done w w1 i XM0 (XM1 (m_val m))); try done.
      + by rewrite Earc'.
      + by rewrite Earc'.
      + simpl. intros Eone. apply N.eqb_eq in Eone.
        pose proof (fresh_last _ _ _ _ _ _ Hfr Hat eq_refl Hcn Ht Eone Hpos) as Hl1.
        eapply (full_acquired w i XM0 hv tv' m); try done.
        * pose proof (last_val LStrong _ _ _ Hsh Ht Hl1) as Hmv. simpl in Hmv. congruence.
        * simpl in Ht. rewrite last_lookup, <- Hl1. done.
        * by apply Hacq.
      + by left.
      + eapply shape_loaded; [done|exact Hperf|]. by rewrite Earc'.
      + rewrite Earc'. destruct (N.eq_dec (m_val m) 1) as [Eone|Eone].
        * pose proof (fresh_last _ _ _ _ _ _ Hfr Hat eq_refl Hcn Ht Eone Hpos) as Hl1.
          pose proof (last_val LStrong _ _ _ Hsh Ht Hl1) as Hmv. simpl in Hmv.
          apply Hsc. simpl. unfold checked. rewrite Hm, <- Hmv. done.
        * apply Hcg. apply Hst; try done. simpl. lia.
    - (* XM1 *)
      pose proof Hperf as (m&c1&Ht&Hpos&Hgo&Earc&Es&Ew&Hacq). rewrite Hex in Hgo. simpl in Hgo.
      unfold checked in Hgo. rewrite Hmw in Hgo. injection Hgo as <-. simpl in Earc.
      set (x' := if strong =? 1 then if m_val m =? 0 then XMut else XMInc (m_val m) else XMClone) in *.
      assert (Ho' : owns_x x' = true) by (unfold x'; repeat case_match; done).
      assert (Earc' : w_arc w1 = goto i x' (w_arc w)).
      { rewrite Earc. unfold set_weak, goto, set_h, set_hs. simpl. by destruct (w_arc w). }
      eapply (excl_done w w1 i (XM1 strong) x'); try done.
      + by rewrite Earc'.
      + by rewrite Earc'.
      + intros Hlo. eapply vle_trans; [|exact G1]. apply (Hfu _ _ _ Hat). simpl. unfold x' in Hlo. by destruct (strong =? 1).
      + by left.
      + eapply shape_loaded; [done|exact Hperf|]. by rewrite Earc'.
      + rewrite Earc'. unfold x'. destruct (strong =? 1) eqn:Eone.
        * pose proof (top_last LWeak _ _ _ _ (Hfu _ _ _ Hat Eone) Ht Hpos) as Hl1.
          pose proof (last_val LWeak _ _ _ Hsh Ht Hl1) as Hmv. simpl in Hmv.
          apply Hsc. simpl. unfold checked. rewrite Hm, <- Hmv, Eone. done.
        * apply Hcg. by apply Hst.
    - (* XMInc *)
      assert (Hone : forall c1, step_excl i (XMInc v) flag (w_arc w) = Some c1 -> w_arc w1 = c1 ->
        w_strong w1 = w_strong w ->
        (exists m, last (w_strong w1) = Some m /\ m_val m = a_strong (w_arc w1)) /\
        (exists m, last (w_weak w1) = Some m /\ m_val m = a_weak (w_arc w1)) ->
        WI (set_hv (<[i := HV tv' (hv_calls hv)]> (w_hv w1)) w1) /\ calm (w_arc w) (w_arc w1)).
      { intros c1 H1 Ec Es Hsp. pose proof (Hsc _ H1) as HPc. rewrite <- Ec in HPc.
        assert (exists x', a_hs c1 = <[i := AHandle x' []]> (a_hs (w_arc w)) /\ owns_x x' = true /\ L c1 = L (w_arc w)) as (x'&X1&X2&X3).
        { simpl in H1. unfold checked in H1. rewrite Hm in H1. injection H1 as <-.
          repeat case_match; eexists; (split; [reflexivity|]); (split; [done|]); hap. }
        eapply (excl_done w w1 i (XMInc v) x'); try done.
        - by rewrite Ec.
        - by rewrite Ec, X3.
        - intros _. eapply vle_trans; [|exact G1]. by apply (Hfu _ _ _ Hat).
        - by left. }
      destruct Hperf as [[Hld (m0&c0&Hm0&Hgo0&Hcm)]|(m&m'&Hlast&Hgo&Hne&HW&Hmm&_&Hacq&Hrd)].
      + pose proof Hld as (m&c1&Ht&Hpos&Hgo&Earc&Es&Ew&_). rewrite Ht in Hm0. injection Hm0 as <-.
        rewrite Hgo in Hgo0. injection Hgo0 as <-.
        pose proof (top_last LWeak _ _ _ _ (Hfu _ _ _ Hat eq_refl) Ht Hpos) as Hl1.
        pose proof (last_val LWeak _ _ _ Hsh Ht Hl1) as Hmv.
        rewrite Hex, Hmv, set_counter_same in Hgo. rewrite Hmv in Hcm.
        assert (Ec : w_arc w1 = c1) by (rewrite Earc, <- Hcm; apply set_counter_same).
        apply (Hone c1); try done. eapply shape_loaded; [done|exact Hld|].
        rewrite Ec. simpl in Hgo. unfold checked in Hgo. rewrite Hm in Hgo. injection Hgo as <-. repeat case_match; done.
      + pose proof (last_val' LWeak _ _ Hsh Hlast) as Hmv. rewrite Hex, Hmv, set_counter_same in Hgo.
        apply (Hone _ Hgo); try done.
        * by destruct HW as (_&_&_&?).
        * eapply shape_written; [done|exact HW|]. simpl in Hgo. unfold checked in Hgo. rewrite Hm in Hgo. injection Hgo as <-.
          repeat case_match; done.
    - (* XMZero *)
      destruct Hperf as [[Hld (m0&c0&Hm0&Hgo0&Hcm)]|(m&m'&Hlast&Hgo&Hne&HW&Hmm&_&Hacq&Hrd)].
      + pose proof Hld as (m&c1&Ht&Hpos&Hgo&Earc&Es&Ew&_). rewrite Ht in Hm0. injection Hm0 as <-.
        rewrite Hgo in Hgo0. injection Hgo0 as <-.
        pose proof (top_last LStrong _ _ _ _ (Hfu _ _ _ Hat eq_refl) Ht Hpos) as Hl1.
        pose proof (last_val LStrong _ _ _ Hsh Ht Hl1) as Hmv.
        rewrite Hex, Hmv, set_counter_same in Hgo. rewrite Hmv in Hcm.
        assert (Ec : w_arc w1 = c1) by (rewrite Earc, <- Hcm; apply set_counter_same).
        pose proof (Hsc _ Hgo) as HPc. rewrite <- Ec in HPc.
        simpl in Hgo. unfold checked in Hgo. rewrite Hm in Hgo. injection Hgo as Hgo.
        destruct (negb flag && (a_strong (w_arc w) =? 1)) eqn:Eone.
        { exfalso. apply andb_prop in Eone as [_ Eone]. apply N.eqb_eq in Eone. rewrite <- Hgo in Hcm. simpl in Hcm. congruence. }
        eapply (excl_done w w1 i XMZero XMClone); try done.
        * by rewrite Ec, <- Hgo.
        * by rewrite Ec, <- Hgo.
        * by left.
        * eapply shape_loaded; [done|exact Hld|]. by rewrite Ec, <- Hgo.
      + pose proof (last_val' LStrong _ _ Hsh Hlast) as Hmv. rewrite Hex, Hmv, set_counter_same in Hgo.
        pose proof (Hsc _ Hgo) as HPc. simpl in Hgo. unfold checked in Hgo. rewrite Hm in Hgo. injection Hgo as Hgo.
        destruct (negb flag && (a_strong (w_arc w) =? 1)) eqn:Eone.
        2:{ exfalso. rewrite <- Hgo in Hne. simpl in Hne, Hmv. congruence. }
        apply andb_prop in Eone as [_ Eone]. apply N.eqb_eq in Eone. destruct HPc as [HP Hcalm].
        split; [|done]. split.
        * destruct (shape_written LStrong _ _ _ _ _ Hsh HW) as [? ?]; [rewrite <- Hgo; done|].
          eapply shape_excl; [done|done|done| |done|done]. rewrite <- Hgo. done.
        * right. left. split.
          -- destruct HP as [HA|HB]; [|done]. exfalso. eapply (noPA _ i XMTake HA); [|done]. rewrite <- Hgo.
             by apply list_lookup_insert.
          -- eapply (VB_end w w1 i XMZero XMTake hv tv' m); try done; [by rewrite <- Hgo|].
             simpl. by apply Hacq.
    - (* XMClone *)
      destruct Hperf as [Hgo (Es&Ew)]. rewrite (excl_lookup _ _ _ _ Hi) in Hgo.
      pose proof (Hsc _ Hgo) as HPc. simpl in Hgo. unfold checked in Hgo. rewrite Hv in Hgo. injection Hgo as Earc.
      eapply (excl_done w w1 i XMClone (if flag then XHeld else XMNewC)); try done.
      + rewrite <- Earc. by destruct flag.
      + by destruct flag.
      + rewrite <- Earc. destruct flag; hap.
      + by destruct flag.
      + by left.
      + apply (shape_plain w); try done; rewrite <- Earc; by destruct flag.
    - (* XMNewC *)
      destruct Hperf as [Hgo (Es&Ew)]. rewrite (excl_lookup _ _ _ _ Hi) in Hgo.
      pose proof (Hsc _ Hgo) as HPc. simpl in Hgo. injection Hgo as Earc.
      eapply (excl_done w w1 i XMNewC (if flag then XHeld else XDrop)); try done.
      + rewrite <- Earc. by destruct flag.
      + by destruct flag.
      + rewrite <- Earc. destruct flag; hap.
      + by destruct flag.
      + by left.
      + apply (shape_plain w); try done; rewrite <- Earc; by destruct flag.
  Qed.
End ord_inv.
