(** Steps of the calls taking [&Arc] while the value is alive. *)
From Verif Require Export ArcOrdProofs4.
From Coq Require Import ZifyBool ZifyNat ZifyN.

Section ord_inv.
  Context {PR : Profile} {T : Type}.
  Notation conf := (aconf T).
  Notation wconf := (wconf T).
  Implicit Types (c : conf) (w : wconf) (h : ahandle) (x : xpc) (tv : tview) (hv : hview).
  Notation L c := (happened is_leak c).
  Ltac hap := autorewrite with hap; simpl; rewrite ?N.add_0_r; try lia.

  (** The shape after a step on handle [i]. *)
  Lemma shape_upd w w' i h hv h' hv' ps pv :
    shape w -> at_ w i h hv ->
    a_hs (w_arc w') = <[i := h']> (a_hs (w_arc w)) ++ ps -> w_hv w' = <[i := hv']> (w_hv w) ++ pv ->
    length (hv_calls hv') = length (h_sh h') ->
    (ps = [] /\ pv = [] \/ exists tv, ps = [held] /\ pv = [HV tv []]) ->
    (exists m, last (w_strong w') = Some m /\ m_val m = a_strong (w_arc w')) /\
    (exists m, last (w_weak w') = Some m /\ m_val m = a_weak (w_arc w')) ->
    shape w'.
  Proof.
    intros (Hlen&Hlc&_) [Hi Hiv] Hhs Hhv Hl Hp Hsw. split; [|split; [|done]].
    - rewrite Hhs, Hhv, !app_length, !insert_length. destruct Hp as [[-> ->]|(tv&->&->)]; simpl; lia.
    - intros j h1 hv1 [H1 H2]. rewrite Hhs in H1. rewrite Hhv in H2.
      apply lookup_lt_Some in Hi as Hil.
      apply lookup_upd_app in H1; [|done]. apply lookup_upd_app in H2; [|lia].
      destruct H1 as [[-> ->]|[[Hne H1]|(k1&Hj1&H1)]].
      + destruct H2 as [[_ ->]|[[? _]|(k2&?&_)]]; [done|done|lia].
      + destruct H2 as [[? _]|[[_ H2]|(k2&Hj2&_)]]; [done|by apply (Hlc j)|].
        apply lookup_lt_Some in H1. lia.
      + destruct H2 as [[? _]|[[_ H2]|(k2&Hj2&H2)]]; [lia|apply lookup_lt_Some in H2; lia|].
        destruct Hp as [[-> ->]|(tv&->&->)]; [done|].
        apply list_lookup_singleton_Some in H1 as [_ <-]. by apply list_lookup_singleton_Some in H2 as [_ <-].
  Qed.

  Lemma delete_lookup {A} (l : list A) k j y : delete k l !! j = Some y ->
    exists j', l !! j' = Some y /\ j' = (if decide (j < k)%nat then j else S j).
  Proof.
    intros H. case_decide.
    - rewrite lookup_delete_lt in H by done. by exists j.
    - rewrite lookup_delete_ge in H by lia. by exists (S j).
  Qed.
  Lemma lookup_delete_other {A} (l : list A) k j y : l !! j = Some y -> j <> k -> exists j', delete k l !! j' = Some y.
  Proof.
    intros H Hne. destruct (decide (j < k)%nat).
    - exists j. by rewrite lookup_delete_lt.
    - destruct j as [|j]; [lia|]. exists j. rewrite lookup_delete_ge by lia. done.
  Qed.

  (** The call goes on. *)
  Lemma stay_done w w1 i k h hv s s' tv tv' ko :
    PA (w_arc w) -> shape w -> VA w -> at_ w i h hv -> h_ex h = XHeld ->
    h_sh h !! k = Some s -> hv_calls hv !! k = Some tv ->
    grown ko tv w tv' w1 -> ko <> Some KFree -> ko <> Some KWrite -> 
    a_hs (w_arc w1) = <[i := AHandle (h_ex h) (<[k := s']> (h_sh h))]> (a_hs (w_arc w)) ->
    L (w_arc w1) = L (w_arc w) ->
    (w_strong w1 = w_strong w /\ is_clone1 s' = false \/
     exists m m', last (w_strong w) = Some m /\ w_strong w1 = w_strong w ++ [m'] /\ vle (m_view m) (m_view m') /\
       (length (w_strong w) <= v_strong (t_cur tv'))%nat) ->
    (exists m, last (w_strong w1) = Some m /\ m_val m = a_strong (w_arc w1)) /\
    (exists m, last (w_weak w1) = Some m /\ m_val m = a_weak (w_arc w1)) ->
    PA (w_arc w1) -> calm (w_arc w) (w_arc w1) ->
    WI (after_shared i k h hv tv' w w1) /\ calm (w_arc w) (w_arc w1).
  Proof.
    intros HPA Hsh HVA Hat Hex Hk Hc (G1&G2&G3&G4&G5) Hnk Hkw Hhs HL Hstr Hsw HP Hcalm. split; [|done].
    pose proof Hat as [Hi Hiv]. apply lookup_lt_Some in Hi as Hil. apply lookup_lt_Some in Hk as Hkl.
    apply lookup_lt_Some in Hc as Hkc. pose proof Hsh as (Hlen&Hlc&_).
    assert (Eaf : after_shared i k h hv tv' w w1 = set_hv (<[i := HV (hv_own hv) (<[k := tv']> (hv_calls hv))]> (w_hv w1)) w1).
    { unfold after_shared. rewrite Hhs, list_lookup_insert by done. simpl. rewrite !insert_length.
      by rewrite !Nat.ltb_irrefl. }
    rewrite Eaf. assert (Hhl : forall V, hle (HV (hv_own hv) (<[k := tv']> (hv_calls hv))) V -> vle (t_cur tv') V /\ hle hv V).
    { intros V [H1 H2]. simpl in H1, H2. assert (H3 : vle (t_cur tv') V) by (apply (H2 k); by apply list_lookup_insert).
      split; [done|]. split; [done|]. intros k0 tv0 H0. destruct (decide (k0 = k)) as [->|Hne].
      - rewrite Hc in H0. injection H0 as <-. by eapply vle_trans.
      - apply (H2 k0). by rewrite list_lookup_insert_ne. }
    split.
    - eapply (shape_upd w _ i h hv (AHandle (h_ex h) (<[k := s']> (h_sh h))) (HV (hv_own hv) (<[k := tv']> (hv_calls hv))) [] []); simpl.
      + done.
      + done.
      + by rewrite app_nil_r.
      + by rewrite app_nil_r, G2.
      + rewrite !insert_length. by apply (Hlc i).
      + by left.
      + done.
    - left. split; [done|].
      eapply (VA_upd w _ i h hv (AHandle (h_ex h) (<[k := s']> (h_sh h))) (HV (hv_own hv) (<[k := tv']> (hv_calls hv))) [] [] ko tv); try done; simpl.
      + by rewrite Hex.
      + by rewrite app_nil_r.
      + by rewrite app_nil_r, G2.
      + destruct Hstr as [[E _]|(m&m'&_&E&_&Hl)].
        * left. split; [done|]. intros _ V HV. by apply Hhl.
        * right. split; [by exists m'|]. intros _ V HV. apply Hhl in HV as [(?&_) _]. lia.
      + intros HL0. split; [by rewrite <- HL|]. intros V m m' Hm Hm' HV Hh. rewrite Hex in Hh.
        destruct (Hhl V (Hh eq_refl)) as [Hh1 Hh2]. split; [|split; [done|]].
        * destruct Hstr as [[E _]|(m0&m1&E0&E&Hle&_)].
          -- rewrite E in Hm'. congruence.
          -- rewrite E, last_snoc in Hm'. rewrite Hm in E0. injection Hm' as <-. injection E0 as <-. by eapply vle_trans.
        * intros Ht. by apply G4.
      + intros k0 old tv0 H0 H1. destruct (decide (k0 = k)) as [->|Hne].
        * rewrite list_lookup_insert in H0 by done. rewrite list_lookup_insert in H1 by done. injection H0 as ->. injection H1 as <-.
          destruct Hstr as [[_ E]|(m&m'&_&E&_&Hl)]; [done|]. left. rewrite E, app_length. simpl. lia.
        * rewrite list_lookup_insert_ne in H0 by done. rewrite list_lookup_insert_ne in H1 by done. right.
          exists k0, old, tv0. split; [done|]. split; [done|]. apply vle_refl.
      + intros _. right. exists k, tv. split; [done|apply vle_refl].
      + intros _ k0 tv0 H1. right. destruct (decide (k0 = k)) as [->|Hne].
        * rewrite list_lookup_insert in H1 by done. injection H1 as <-. by exists k, tv.
        * rewrite list_lookup_insert_ne in H1 by done. exists k0, tv0. split; [done|apply vle_refl].
      + by rewrite Hex.
      + by left.
  Qed.

  (** The call is over. *)
  Lemma end_done w w1 i k h hv s tv tv' ko (push : bool) :
    PA (w_arc w) -> shape w -> VA w -> at_ w i h hv -> h_ex h = XHeld ->
    h_sh h !! k = Some s -> hv_calls hv !! k = Some tv ->
    grown ko tv w tv' w1 -> ko <> Some KFree -> ko <> Some KWrite ->
    a_hs (w_arc w1) = <[i := AHandle (h_ex h) (delete k (h_sh h))]> (a_hs (w_arc w)) ++ (if push then [held] else []) ->
    (push = true -> exists old, s = SClone1 old) ->
    (L (w_arc w1) = 0 -> L (w_arc w) = 0) -> w_strong w1 = w_strong w ->
    (exists m, last (w_strong w1) = Some m /\ m_val m = a_strong (w_arc w1)) /\
    (exists m, last (w_weak w1) = Some m /\ m_val m = a_weak (w_arc w1)) ->
    PA (w_arc w1) -> calm (w_arc w) (w_arc w1) ->
    WI (after_shared i k h hv tv' w w1) /\ calm (w_arc w) (w_arc w1).
  Proof.
    intros HPA Hsh HVA Hat Hex Hk Hc (G1&G2&G3&G4&G5) Hnk Hkw Hhs Hpu HL Hstr Hsw HP Hcalm. split; [|done].
    pose proof Hat as [Hi Hiv]. apply lookup_lt_Some in Hi as Hil. apply lookup_lt_Some in Hk as Hkl.
    apply lookup_lt_Some in Hc as Hkc. pose proof Hsh as (Hlen&Hlc&_).
    set (hv' := HV (TV (vjoin (t_cur (hv_own hv)) (t_cur tv')) (t_read (hv_own hv))) (delete k (hv_calls hv))).
    set (pv := if push then [HV (TV (t_cur tv') v_none) []] else []).
    assert (Eaf : after_shared i k h hv tv' w w1 = set_hv (<[i := hv']> (w_hv w1) ++ pv) w1).
    { unfold after_shared. rewrite Hhs. rewrite lookup_app_l by (by rewrite insert_length).
      rewrite list_lookup_insert by done. simpl. rewrite length_delete by (by exists s).
      assert (El : (length (h_sh h) - 1 <? length (h_sh h))%nat = true) by (apply Nat.ltb_lt; lia). rewrite El.
      rewrite app_length, insert_length. unfold pv, hv'. destruct push; simpl.
      - assert (E : (length (a_hs (w_arc w)) <? length (a_hs (w_arc w)) + 1)%nat = true) by (apply Nat.ltb_lt; lia). by rewrite E.
      - assert (E : (length (a_hs (w_arc w)) <? length (a_hs (w_arc w)) + 0)%nat = false) by (apply Nat.ltb_ge; lia).
        rewrite E. by rewrite app_nil_r. }
    rewrite Eaf. assert (Hhl : forall V, hle hv' V -> vle (t_cur tv') V /\ hle hv V).
    { intros V [H1 H2]. simpl in H1, H2. assert (H3 : vle (t_cur tv') V) by (eapply vle_trans; [apply vjoin_r|exact H1]).
      split; [done|]. split; [eapply vle_trans; [apply vjoin_l|exact H1]|].
      intros k0 tv0 H0. destruct (decide (k0 = k)) as [->|Hne].
      - rewrite Hc in H0. injection H0 as <-. by eapply vle_trans.
      - destruct (lookup_delete_other _ k _ _ H0 Hne) as [j Hj]. by apply (H2 j). }
    split.
    - eapply (shape_upd w _ i h hv (AHandle (h_ex h) (delete k (h_sh h))) hv' (if push then [held] else []) pv); simpl.
      + done.
      + done.
      + done.
      + by rewrite G2.
      + rewrite !length_delete by (by eexists). by rewrite (Hlc _ _ _ Hat).
      + unfold pv. destruct push; [right; by eexists|by left].
      + done.
    - left. split; [done|].
      eapply (VA_upd w _ i h hv (AHandle (h_ex h) (delete k (h_sh h))) hv' (if push then [held] else []) pv ko tv); try done; simpl.
      + by rewrite Hex.
      + by rewrite G2.
      + left. split; [done|]. intros _ V HV. by apply Hhl.
      + intros HL0. split; [by apply HL|]. intros V m m' Hm Hm' HV Hh. rewrite Hex in Hh.
        destruct (Hhl V (Hh eq_refl)) as [Hh1 Hh2]. split; [|split; [done|]].
        * rewrite Hstr in Hm'. congruence.
        * intros Ht. by apply G4.
      + intros k0 old tv0 H0 H1. right. apply delete_lookup in H0 as (j&H0&->). apply delete_lookup in H1 as (j&H1&->).
        eexists _, old, tv0. split; [exact H0|]. split; [done|]. apply vle_refl.
      + intros _. right. exists k, tv. split; [done|apply vle_refl].
      + intros _. apply vjoin_l.
      + intros _ k0 tv0 H1. right. apply delete_lookup in H1 as (j&H1&_). exists j, tv0. split; [done|apply vle_refl].
      + by rewrite Hex.
      + unfold pv. destruct push; [|by left]. right. destruct (Hpu eq_refl) as [old ->].
        exists k, old, tv, (TV (t_cur tv') v_none). done.
  Qed.

  (** A step that is none of [ArcModel]: an old value was read. *)
  Lemma PA_sgoto c i h k s s' :
    PA c -> a_hs c !! i = Some h -> h_sh h !! k = Some s -> is_clone1 s = false -> is_clone1 s' = false ->
    PA (sgoto i h k s' c) /\ asize (sgoto i h k s' c) = asize c.
  Proof.
    intros HPA Hi Hk Hs Hs'. pose proof HPA as (Hd&Hf&Hst&Hp&Hl&HK&Hw&Hz&Hlone&Hinc&E1&E2&E3&E4).
    pose proof (Forall_lookup_1 _ _ _ _ Hl Hi) as [He Hh].
    assert (Hex : h_ex h = XHeld).
    { destruct (h_ex h) eqn:Ex; try done; exfalso.
      all: assert (h_sh h = []) as E by (apply Hh; by rewrite Ex); by rewrite E in Hk. }
    pose proof (cnt_insert is_clone1 _ _ _ s' Hk) as Ec. rewrite Hs, Hs' in Ec.
    assert (Eo : own (AHandle (h_ex h) (<[k:=s']> (h_sh h))) = own h).
    { unfold own. simpl. lia. }
    assert (Elk : lk (AHandle (h_ex h) (<[k:=s']> (h_sh h))) = lk h) by done.
    split.
    - eapply (PA_upd c _ i h (AHandle (h_ex h) (<[k:=s']> (h_sh h)))); try done; simpl; hap; rewrite ?Eo, ?Elk, ?Hex; try done; try lia.
      + unfold own. rewrite Hex. simpl. lia.
      + split; [done|by intros ?].
      + rewrite Hw. replace (sumN lk (a_hs c) + lk h =? lk h) with (sumN lk (a_hs c) =? 0); [done|]. lia.
    - unfold asize, owners. simpl. pose proof (sumN_insert own _ _ _ (AHandle (h_ex h) (<[k:=s']> (h_sh h))) Hi) as S.
      rewrite Eo in S. rewrite !hap_sgoto. lia.
  Qed.

  Lemma shared_VA w i k flag t h hv s tv tv' w1 :
    PA (w_arc w) -> shape w -> VA w -> at_ w i h hv -> h_sh h !! k = Some s -> hv_calls hv !! k = Some tv ->
    asize (w_arc w) + 4 <= usize_max ->
    perform (action_s s) t tv w (astep (LSh i k flag)) = Some (tv', w1) ->
    WI (after_shared i k h hv tv' w w1) /\ calm (w_arc w) (w_arc w1).
  Proof.
    intros HPA Hsh HVA Hat Hk Hc Hsz Hpf. pose proof HPA as (Hd&Hf&Hs&Hp&Hl&_).
    pose proof Hat as [Hi Hiv]. pose proof (Forall_lookup_1 _ _ _ _ Hl Hi) as [He Hh].
    assert (Hex : h_ex h = XHeld).
    { destruct (h_ex h) eqn:Ex; try done; exfalso.
      all: assert (h_sh h = []) as E by (apply Hh; by rewrite Ex); by rewrite E in Hk. }
    pose proof (perform_spec _ _ _ _ _ _ _ Hpf) as [G Hperf]. clear Hpf.
    assert (Hm : mem_ok (w_arc w) = true) by (unfold mem_ok; by rewrite Hf).
    assert (Hv : val_ok (w_arc w) = true) by (unfold val_ok; by rewrite Hf, Hd).
    assert (Hms : forall n, mem_ok (set_strong n (w_arc w)) = true) by done.
    assert (Hmw : forall n, mem_ok (set_weak n (w_arc w)) = true) by done.
    assert (Hse : forall c, a_hs c = a_hs (w_arc w) -> astep (LSh i k flag) c = Some (step_shared i h k s flag c)).
    { intros c E. simpl. by rewrite E, Hi, Hk. }
    assert (Hset : forall l n, astep (LSh i k flag) (set_counter l n (w_arc w)) = Some (step_shared i h k s flag (set_counter l n (w_arc w)))).
    { intros. apply Hse. by rewrite hs_set. }
    assert (Hsc : forall c1, c1 = step_shared i h k s flag (w_arc w) -> PA c1 /\ calm (w_arc w) c1).
    { intros c1 ->. destruct (shared_PA _ _ _ _ _ flag HPA Hi Hk Hsz) as (?&?&?&?). done. }
    assert (Hst : forall s', is_clone1 s = false -> is_clone1 s' = false ->
      PA (sgoto i h k s' (w_arc w)) /\ calm (w_arc w) (sgoto i h k s' (w_arc w))).
    { intros s' H1 H2. destruct (PA_sgoto _ _ _ _ _ s' HPA Hi Hk H1 H2) as [? E]. split; [done|].
      split; [done|]. split; [done|]. rewrite E. lia. }
    destruct s as [|old| | |v]; cbn [action_s performed] in Hperf; cbn [action_s kind_of] in G.
    - (* SClone0 *)
      destruct Hperf as [[_ (m&c1&_&Hgo&Hcm)]|(m&m'&Hlast&Hgo&Hne&HW&Hmm&_)].
      { rewrite Hset in Hgo. injection Hgo as <-. simpl in Hcm. unfold checked in Hcm. rewrite Hms in Hcm.
        simpl in Hcm. by destruct (wadd_ne (m_val m)). }
      pose proof (last_val' LStrong _ _ Hsh Hlast) as Hmv. rewrite Hset, Hmv, set_counter_same in Hgo.
      injection Hgo as Earc. symmetry in Earc. destruct (Hsc _ Earc) as [HP1 Hc1]. simpl in Earc. unfold checked in Earc. rewrite Hm in Earc.
      eapply (stay_done w w1 i k h hv SClone0 (SClone1 (a_strong (w_arc w))) tv tv'); try done.
      + by rewrite Earc.
      + by rewrite Earc.
      + right. destruct HW as (?&_&?&_). by exists m, m'.
      + eapply shape_written; [done|exact HW|]. by rewrite Earc.
    - (* SClone1 *)
      destruct Hperf as [Hgo (Es&Ew)]. rewrite (Hse _ eq_refl) in Hgo.
      injection Hgo as Earc. symmetry in Earc. destruct (Hsc _ Earc) as [HP1 Hc1]. simpl in Earc.
      destruct (max_refcount <? old).
      + eapply (end_done w w1 i k h hv (SClone1 old) tv tv' _ false); try done.
        * rewrite Earc. simpl. by rewrite app_nil_r.
        * rewrite Earc. hap.
        * apply (shape_plain w); try done; by rewrite Earc.
      + eapply (end_done w w1 i k h hv (SClone1 old) tv tv' _ true); try done.
        * by rewrite Earc.
        * intros _. by exists old.
        * rewrite Earc. hap.
        * apply (shape_plain w); try done; by rewrite Earc.
    - (* SRead *)
      destruct Hperf as [Hgo (Es&Ew)]. rewrite (Hse _ eq_refl) in Hgo.
      injection Hgo as Earc. symmetry in Earc. destruct (Hsc _ Earc) as [HP1 Hc1]. simpl in Earc.
      unfold checked in Earc. rewrite Hv in Earc. destruct flag.
      + eapply (end_done w w1 i k h hv SRead tv tv' _ false); try done.
        * rewrite Earc. simpl. by rewrite app_nil_r.
        * rewrite Earc. hap.
        * apply (shape_plain w); try done; by rewrite Earc.
      + eapply (stay_done w w1 i k h hv SRead SRead tv tv'); try done.
        * rewrite Earc, (list_insert_id _ _ _ Hk). symmetry. apply list_insert_id. by destruct h.
        * by rewrite Earc.
        * by left.
        * apply (shape_plain w); try done; by rewrite Earc.
    - (* SDown0 *)
      pose proof Hperf as (m&c1&Ht&Hpos&Hgo&Earc&Es&Ew&_). rewrite Hset in Hgo. injection Hgo as <-. simpl in Earc.
      unfold checked in Earc. rewrite Hmw in Earc.
      assert (Earc' : w_arc w1 = sgoto i h k (SDown (m_val m)) (w_arc w)).
      { rewrite Earc. unfold set_weak, sgoto, set_h, set_hs. simpl. by destruct (w_arc w). }
      destruct (Hst (SDown (m_val m))) as [HP1 Hc1]; [done|done|]. rewrite <- Earc' in HP1, Hc1.
      eapply (stay_done w w1 i k h hv SDown0 (SDown (m_val m)) tv tv'); try done.
      + by rewrite Earc'.
      + by rewrite Earc'.
      + by left.
      + eapply shape_loaded; [done|exact Hperf|]. by rewrite Earc'.
    - (* SDown *)
      destruct (v =? usize_max) eqn:Ev; cbn [performed kind_of] in Hperf, G.
      + pose proof Hperf as (m&c1&Ht&Hpos&Hgo&Earc&Es&Ew&_). rewrite Hset in Hgo. injection Hgo as <-. simpl in Earc.
        unfold checked in Earc. rewrite Hmw, Ev in Earc.
        assert (Earc' : w_arc w1 = sgoto i h k (SDown (m_val m)) (w_arc w)).
        { rewrite Earc. unfold set_weak, sgoto, set_h, set_hs. simpl. by destruct (w_arc w). }
        destruct (Hst (SDown (m_val m))) as [HP1 Hc1]; [done|done|]. rewrite <- Earc' in HP1, Hc1.
        eapply (stay_done w w1 i k h hv (SDown v) (SDown (m_val m)) tv tv'); try done.
        * by rewrite Earc'.
        * by rewrite Earc'.
        * by left.
        * eapply shape_loaded; [done|exact Hperf|]. by rewrite Earc'.
      + destruct Hperf as [[Hld (m&c1&Ht&Hgo&Hcm)]|(m&m'&Hlast&Hgo&Hne&HW&Hmm&_)].
        * pose proof Hld as (m0&c0&Ht0&Hpos&Hgo0&Earc&Es&Ew&_). rewrite Ht in Ht0. injection Ht0 as <-.
          rewrite Hgo in Hgo0. injection Hgo0 as <-. rewrite Hset in Hgo. injection Hgo as <-.
          simpl in Hcm, Earc. unfold checked in Hcm, Earc. rewrite Hmw, Ev in Hcm, Earc.
          destruct (negb flag && (m_val m =? v)) eqn:Em; simpl in Hcm.
          { apply andb_prop in Em as [_ Em]. apply N.eqb_eq in Em. lia. }
          assert (Earc' : w_arc w1 = w_arc w).
          { rewrite Earc. unfold set_weak. simpl. by destruct (w_arc w). }
          eapply (stay_done w w1 i k h hv (SDown v) (SDown v) tv tv'); try done.
          -- rewrite Earc', (list_insert_id _ _ _ Hk). symmetry. apply list_insert_id. by destruct h.
          -- by rewrite Earc'.
          -- by left.
          -- eapply shape_loaded; [done|exact Hld|]. by rewrite Earc'.
          -- by rewrite Earc'.
          -- rewrite Earc'. split; [done|]. split; [done|lia].
        * pose proof (last_val' LWeak _ _ Hsh Hlast) as Hmv. rewrite Hset, Hmv, set_counter_same in Hgo.
          injection Hgo as Earc. symmetry in Earc. destruct (Hsc _ Earc) as [HP1 Hc1]. simpl in Earc. unfold checked in Earc.
          rewrite Hm, Ev in Earc. destruct (negb flag && (a_weak (w_arc w) =? v)) eqn:Em.
          2:{ exfalso. rewrite Earc in Hne. simpl in Hne, Hmv. congruence. }
          eapply (end_done w w1 i k h hv (SDown v) tv tv' _ false); try done.
          -- rewrite Earc. simpl. by rewrite app_nil_r.
          -- rewrite Earc. hap.
          -- by destruct HW as (_&_&_&?).
          -- eapply shape_written; [done|exact HW|]. by rewrite Earc.
  Qed.
End ord_inv.
