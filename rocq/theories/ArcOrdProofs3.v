(** Steps of the calls taking [&mut Arc] or [Arc] while the value is alive. *)
From Verif Require Export ArcOrdProofs2.
From Coq Require Import ZifyBool ZifyNat ZifyN.

Section ord_inv.
  Context {PR : Profile} {T : Type}.
  Notation conf := (aconf T).
  Notation wconf := (wconf T).
  Implicit Types (c : conf) (w : wconf) (h : ahandle) (x : xpc) (tv : tview) (hv : hview).
  Notation L c := (happened is_leak c).
  Ltac hap := autorewrite with hap; simpl; rewrite ?N.add_0_r; try lia.

  Definition VB w : Prop :=
    nofree w /\ race_free w /\
    forall i h hv, at_ w i h hv -> ending (h_ex h) = true -> vle (top w) (t_cur (fenced (fence_x (h_ex h)) (hv_own hv))).

  Lemma noPB c i x : PB c -> a_hs c !! i = Some (AHandle x []) -> owns_x x = true -> False.
  Proof.
    intros (j&y&Hj&He&Ha&_) Hi Ho. destruct (decide (i = j)) as [->|Hne].
    - rewrite Hi in Hj. injection Hj as <-. by destruct x.
    - pose proof (Ha _ _ Hne Hi) as [= ->]. done.
  Qed.
  Lemma noPA c i x : PA c -> a_hs c !! i = Some (AHandle x []) -> ending x = true -> False.
  Proof.
    intros (_&_&_&_&Hl&_) Hi He. pose proof (Forall_lookup_1 _ _ _ _ Hl Hi) as [He' _]. simpl in He'. congruence.
  Qed.

  Lemma set_counter_same l c : set_counter l (counter l c) c = c.
  Proof. by destruct l, c. Qed.
  Lemma set_counter_twice l a b c : set_counter l a (set_counter l b c) = set_counter l a c.
  Proof. by destruct l. Qed.
  Lemma counter_set l n c : counter l (set_counter l n c) = n.
  Proof. by destruct l. Qed.
  Lemma hs_set l n c : a_hs (set_counter l n c) = a_hs c.
  Proof. by destruct l. Qed.
  Lemma hap_set f l n c : happened f (set_counter l n c) = happened f c.
  Proof. by destruct l. Qed.

  Lemma wsub_ne n : wsub n 1 <> n.
  Proof.
    unfold wsub. intros E. assert (n < 2 ^ 64) by (rewrite <- E; apply N.mod_lt; lia).
    destruct (N.eq_dec n 0) as [->|Hn]; [by vm_compute in E|].
    replace (n + 2 ^ 64 - 1) with (n - 1 + 1 * 2 ^ 64) in E by lia.
    rewrite N.mod_add, N.mod_small in E by lia. lia.
  Qed.
  Lemma wadd_ne n : wadd n 1 <> n.
  Proof.
    unfold wadd. intros E. assert (n < 2 ^ 64) by (rewrite <- E; apply N.mod_lt; lia).
    destruct (N.eq_dec n (2 ^ 64 - 1)) as [->|Hn]; [by vm_compute in E|].
    rewrite N.mod_small in E by lia. lia.
  Qed.

  (** The latest value. *)
  Lemma last_val l w t m : shape w -> hist l w !! t = Some m -> S t = length (hist l w) -> m_val m = counter l (w_arc w).
  Proof.
    intros (_&_&(ms&Hs&Es)&(mw&Hw&Ew)) Hm Hl. destruct l; simpl in *.
    - rewrite last_lookup, <- Hl in Hs. simpl in Hs. congruence.
    - rewrite last_lookup, <- Hl in Hw. simpl in Hw. congruence.
  Qed.
  Lemma last_val' l w m : shape w -> last (hist l w) = Some m -> m_val m = counter l (w_arc w).
  Proof. intros (_&_&(ms&Hs&Es)&(mw&Hw&Ew)) Hm. destruct l; simpl in *; congruence. Qed.
  Lemma top_last l w t m V : vle (top w) V -> hist l w !! t = Some m -> (v_pos l V <= t)%nat -> S t = length (hist l w).
  Proof. intros (H1&H2&_) Hm Hp. apply lookup_lt_Some in Hm. destruct l; simpl in *; lia. Qed.
  Lemma fresh_last w i h hv t m :
    fresh w -> at_ w i h hv -> owns_x (h_ex h) = true -> hv_calls hv = [] ->
    w_strong w !! t = Some m -> m_val m = 1 -> (v_strong (t_cur (hv_own hv)) <= t)%nat -> S t = length (w_strong w).
  Proof.
    intros Hf Hat Ho Hc Hm H1 Hp. apply lookup_lt_Some in Hm as Hl.
    destruct (decide (S t < length (w_strong w))%nat) as [Hlt|]; [|lia].
    destruct (Hf _ _ Hm H1 Hlt _ _ _ Hat) as [H _]. specialize (H Ho (t_cur (hv_own hv))).
    assert (hle hv (t_cur (hv_own hv))) as Hle.
    { split; [apply vle_refl|]. intros k tv Hk. by rewrite Hc in Hk. }
    specialize (H Hle). lia.
  Qed.

  (** The shape after a step of the owner of a handle. *)
  Lemma shape_excl w w1 i x x' hv tv' :
    shape w -> at_ w i (AHandle x []) hv -> w_hv w1 = w_hv w -> a_hs (w_arc w1) = <[i := AHandle x' []]> (a_hs (w_arc w)) ->
    (exists m, last (w_strong w1) = Some m /\ m_val m = a_strong (w_arc w1)) ->
    (exists m, last (w_weak w1) = Some m /\ m_val m = a_weak (w_arc w1)) ->
    shape (set_hv (<[i := HV tv' (hv_calls hv)]> (w_hv w1)) w1).
  Proof.
    intros (Hlen&Hlc&_) [Hi Hiv] Hhv Hhs Hs Hw. split; [|split; [|by split]].
    - simpl. rewrite Hhs, Hhv, !insert_length. done.
    - intros j h1 hv1 [H1 H2]. simpl in H1, H2. rewrite Hhs in H1. rewrite Hhv in H2.
      apply lookup_lt_Some in Hi as Hil.
      destruct (decide (j = i)) as [->|Hne].
      + rewrite list_lookup_insert in H1 by done. rewrite list_lookup_insert in H2 by lia. simplify_eq. simpl.
        by rewrite (Hlc i (AHandle x []) hv).
      + rewrite list_lookup_insert_ne in H1 by done. rewrite list_lookup_insert_ne in H2 by done. by apply (Hlc j).
  Qed.

  Lemma calls_nil w i x hv : shape w -> at_ w i (AHandle x []) hv -> hv_calls hv = [].
  Proof. intros (_&Hlc&_) Hat. apply nil_length_inv. by rewrite (Hlc _ _ _ Hat). Qed.

  (** The owner of a handle makes a step and still has it. *)
  Lemma VA_excl w w1 i x x' hv tv' ko :
    PA (w_arc w) -> shape w -> VA w -> at_ w i (AHandle x []) hv -> owns_x x = true ->
    grown ko (hv_own hv) w tv' w1 -> ko <> Some KFree -> (ko = Some KWrite -> lone x = true) ->
    a_hs (w_arc w1) = <[i := AHandle x' []]> (a_hs (w_arc w)) -> owns_x x' = true ->
    (L (w_arc w1) = 0 -> L (w_arc w) = 0) ->
    (lone x' = true -> vle (top w) (t_cur tv')) ->
    (w_strong w1 = w_strong w \/
     exists m m', last (w_strong w) = Some m /\ w_strong w1 = w_strong w ++ [m'] /\ vle (m_view m) (m_view m') /\
       (length (w_strong w) <= v_strong (t_cur tv'))%nat) ->
    VA (set_hv (<[i := HV tv' (hv_calls hv)]> (w_hv w1)) w1).
  Proof.
    intros HPA Hsh HVA Hat Hox (G1&G2&G3&G4&G5) Hnk Hkw Hhs Hox' HL Hlo Hstr.
    pose proof (calls_nil _ _ _ _ Hsh Hat) as Hc. rewrite Hc.
    assert (Hhl : forall V, hle (HV tv' []) V -> hle hv V).
    { intros V [HV _]. simpl in HV. split; [by eapply vle_trans|]. rewrite Hc. by intros ? ? ?. }
    eapply (VA_upd w _ i (AHandle x []) hv (AHandle x' []) (HV tv' []) [] [] ko (hv_own hv)); try done.
    - simpl. by rewrite app_nil_r.
    - simpl. by rewrite app_nil_r, G2.
    - simpl. destruct Hstr as [E|(m&m'&_&E&_&Hl)]; [by left; auto|]. right. split; [by exists m'|].
      intros _ V [HV _]. simpl in HV. destruct HV as (?&_). lia.
    - intros HL0. split; [by apply HL|]. intros V m m' Hm Hm' HV Hh. specialize (Hh Hox'). split; [|split; [by apply Hhl|]].
      + destruct Hstr as [E|(m0&m1&E0&E&Hle&_)].
        * simpl in Hm'. rewrite E in Hm'. congruence.
        * simpl in Hm'. rewrite E, last_snoc in Hm'. rewrite Hm in E0. injection Hm' as <-. injection E0 as <-. by eapply vle_trans.
      + intros Ht. apply G4; [done|]. by destruct Hh.
    - intros Hk. subst ko. split; [|split; [done|split; [done|split]]].
      + destruct HPA as (_&_&_&_&_&_&_&_&H1&_). destruct Hat as [Hi _]. apply (H1 _ _ Hi). by apply Hkw.
      + by apply G5.
      + destruct HVA as (_&_&_&_&Hfu&_). apply (Hfu _ _ _ Hat). by apply Hkw.
    - intros _. left. apply vle_refl.
    - intros Hl. apply G4; [|apply vle_refl]. by apply Hlo.
    - by left.
  Qed.

  (** The owner gives the handle up, which is not the last. *)
  Lemma VA_gone w w1 i x hv tv' m m' :
    PA (w_arc w) -> shape w -> VA w -> at_ w i (AHandle x []) hv -> owns_x x = true ->
    grown (Some KAtomic) (hv_own hv) w tv' w1 ->
    a_hs (w_arc w1) = <[i := gone]> (a_hs (w_arc w)) ->
    (L (w_arc w1) = 0 -> L (w_arc w) = 0) ->
    last (w_strong w) = Some m -> w_strong w1 = w_strong w ++ [m'] -> vle (m_view m) (m_view m') ->
    vle (t_cur tv') (m_view m') ->
    VA (set_hv (<[i := HV tv' (hv_calls hv)]> (w_hv w1)) w1).
  Proof.
    intros HPA Hsh HVA Hat Hox (G1&G2&G3&G4&G5) Hhs HL Hm E Hle Hrel.
    pose proof (calls_nil _ _ _ _ Hsh Hat) as Hc. rewrite Hc.
    eapply (VA_upd w _ i (AHandle x []) hv gone (HV tv' []) [] [] (Some KAtomic) (hv_own hv)); try done.
    - simpl. by rewrite app_nil_r.
    - simpl. by rewrite app_nil_r, G2.
    - simpl. right. split; [by exists m'|done].
    - intros HL0. split; [by apply HL|]. intros V m0 m1 Hm0 Hm1 HV _. simpl in Hm1. rewrite E, last_snoc in Hm1.
      rewrite Hm in Hm0. injection Hm0 as <-. injection Hm1 as <-. split; [by eapply vle_trans|]. split.
      + split; [eapply vle_trans; [exact G1|]; by eapply vle_trans|]. rewrite Hc. by intros ? ? ?.
      + intros Ht. apply G4; [done|]. by eapply vle_trans.
    - intros _. left. apply vle_refl.
    - by left.
  Qed.

  (** The last count is given up. *)
  Lemma VB_end w w1 i x x' hv tv' m :
    PA (w_arc w) -> shape w -> VA w -> at_ w i (AHandle x []) hv -> owns_x x = true -> a_strong (w_arc w) = 1 ->
    grown (Some KAtomic) (hv_own hv) w tv' w1 ->
    a_hs (w_arc w1) = <[i := AHandle x' []]> (a_hs (w_arc w)) ->
    last (w_strong w) = Some m -> vle (m_view m) (t_cur (fenced (fence_x x') tv')) ->
    VB (set_hv (<[i := HV tv' (hv_calls hv)]> (w_hv w1)) w1).
  Proof.
    intros HPA Hsh HVA Hat Hox H1 (G1&G2&G3&G4&G5) Hhs Hm Hle.
    pose proof (calls_nil _ _ _ _ Hsh Hat) as Hc. rewrite Hc.
    pose proof HPA as (Hd&Hf&Hs&Hp&Hl&_). destruct HVA as (Hcov&Hfr&Hwr&Hnf&Hfu&Hra). pose proof Hat as [Hi Hiv].
    assert (Hfen : vle (t_cur tv') (t_cur (fenced (fence_x x') tv'))).
    { destruct (fence_x x') as [o|]; simpl; [|apply vle_refl]. destruct (acquires o); [apply vjoin_l|apply vle_refl]. }
    split; [|split].
    - intros e a He. simpl in He. rewrite G3 in He. apply lookup_app_Some in He as [He|[_ He]]; [by eapply Hnf|].
      by apply list_lookup_singleton_Some in He as [_ <-].
    - eapply race_free_snoc; [exact Hra|exact G3|]. simpl. intros e a0 He Hk.
      destruct (ac_kind a0) eqn:E; try done. by destruct (Hnf _ _ He).
    - intros j h1 hv1 [Hj1 Hj2] He. simpl in Hj1, Hj2. rewrite Hhs in Hj1. rewrite G2 in Hj2.
      apply lookup_lt_Some in Hi as Hil. destruct (decide (j = i)) as [->|Hne].
      + rewrite list_lookup_insert in Hj1 by done. apply lookup_lt_Some in Hiv as Hil'.
        rewrite list_lookup_insert in Hj2 by done. injection Hj1 as <-. injection Hj2 as <-. simpl.
        apply (G4 (t_cur (fenced (fence_x x') tv'))); [|exact Hfen].
        assert (Hone : owners (a_hs (w_arc w)) = 1 /\ L (w_arc w) = 0).
        { pose proof (owner_pos _ _ _ Hi) as O. rewrite own_goto, Hox in O. lia. }
        destruct Hone as [HO HL]. destruct (alone_one (w_arc w) i _ Hl Hi) as [Ha _]; [rewrite own_goto, Hox; lia|done|].
        apply (Hcov HL _ m Hm Hle). intros j h hv0 [Hj1 Hj2] Ho.
        destruct (decide (j = i)) as [->|Hne].
        * rewrite Hi in Hj1. rewrite Hiv in Hj2. simplify_eq. split.
          -- by eapply vle_trans.
          -- rewrite Hc. by intros ? ? ?.
        * by rewrite (Ha _ _ Hne Hj1) in Ho.
      + rewrite list_lookup_insert_ne in Hj1 by done. pose proof (Forall_lookup_1 _ _ _ _ Hl Hj1) as [He' _].
        congruence.
  Qed.

  (** A step that is none of [ArcModel]: an old value was read. *)
  Lemma PA_goto c i x x' :
    PA c -> a_hs c !! i = Some (AHandle x []) -> owns_x x = true -> owns_x x' = true ->
    locks x' = locks x -> lone x' = false -> PA (goto i x' c) /\ asize (goto i x' c) = asize c.
  Proof.
    intros HPA Hi Ho Ho' Hlk Hlo. pose proof HPA as (Hd&Hf&Hs&Hp&Hl&HK&Hw&Hz&Hlone&Hinc&E1&E2&E3&E4).
    assert (Hlk' : lk (AHandle x' []) = lk (AHandle x [])) by (unfold lk; simpl; by rewrite Hlk).
    split.
    - eapply (PA_upd c _ i (AHandle x [])); try done; simpl; hap; rewrite ?own_goto, ?Ho, ?Ho', ?Hlk'; try done; try lia.
      + split; [by destruct x'|by intros ?].
      + rewrite Hw. replace (sumN lk (a_hs c) + lk (AHandle x []) =? lk (AHandle x [])) with (sumN lk (a_hs c) =? 0); [done|lia].
      + destruct x'; simpl in *; done || lia.
    - unfold asize, owners. simpl. pose proof (sumN_insert own _ _ _ (AHandle x' []) Hi) as S.
      rewrite !own_goto, Ho, Ho' in S. rewrite !hap_goto. lia.
  Qed.
  Definition neutral (e : aevent_ T) : bool :=
    match e with AUnwrapErr | AGetMut _ | AStrong _ | AWeakCount _ => true | _ => false end.
  Lemma PA_neutral c e : PA c -> neutral e = true -> PA (say e c).
  Proof.
    intros H He. unfold PA in *. rewrite !hap_say. simpl.
    assert (E : is_leak e = false /\ is_weak_made e = false /\ is_destroy e = false /\ is_out e = false /\
      is_free e = false /\ is_drop_panic e = false) by (by destruct e).
    destruct E as (->&->&->&->&->&->). by rewrite !N.add_0_r.
  Qed.
  Lemma asize_neutral c e : neutral e = true -> asize (say e c) = asize c.
  Proof. intros He. unfold asize. rewrite !hap_say. simpl. destruct e; simpl in *; done || lia. Qed.
End ord_inv.
