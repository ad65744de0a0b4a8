(** The invariant while the value is alive. *)
From Verif Require Export ArcOrdProofs.
From Coq Require Import ZifyBool ZifyNat ZifyN.

Section ord_inv.
  Context {PR : Profile} {T : Type}.
  Notation conf := (aconf T).
  Notation wconf := (wconf T).
  Implicit Types (c : conf) (w : wconf) (h : ahandle) (x : xpc) (tv : tview) (hv : hview).
  Notation L c := (happened is_leak c).

  (** [V] knows at least what the owner and the calls of a handle know. *)
  Definition hle hv (V : view) : Prop :=
    vle (t_cur (hv_own hv)) V /\ forall k tv, hv_calls hv !! k = Some tv -> vle (t_cur tv) V.
  (** Handle [i]. *)
  Definition at_ w (i : nat) h hv : Prop := a_hs (w_arc w) !! i = Some h /\ w_hv w !! i = Some hv.

  Definition shape w : Prop :=
    length (w_hv w) = length (a_hs (w_arc w)) /\
    (forall i h hv, at_ w i h hv -> length (hv_calls hv) = length (h_sh h)) /\
    (exists m, last (w_strong w) = Some m /\ m_val m = a_strong (w_arc w)) /\
    (exists m, last (w_weak w) = Some m /\ m_val m = a_weak (w_arc w)).

  (** Nothing is known but to the counted handles and through the counter. *)
  Definition cover w : Prop := forall V m, last (w_strong w) = Some m -> vle (m_view m) V ->
    (forall i h hv, at_ w i h hv -> owns_x (h_ex h) = true -> hle hv V) -> vle (top w) V.
  (** An old value one of the counter is known to be old. *)
  Definition fresh w : Prop := forall t m, w_strong w !! t = Some m -> m_val m = 1 ->
    (S t < length (w_strong w))%nat -> forall i h hv, at_ w i h hv ->
      (owns_x (h_ex h) = true -> forall V, hle hv V -> (t < v_strong V)%nat) /\
      (forall k old tv, h_sh h !! k = Some (SClone1 old) -> hv_calls hv !! k = Some tv -> (t < v_strong (t_cur tv))%nat).
  Definition wrote w : Prop := forall e a, w_trace w !! e = Some a -> ac_kind a = KWrite ->
    forall i h hv, at_ w i h hv -> owns_x (h_ex h) = true ->
      e ∈ v_seen (t_cur (hv_own hv)) /\ forall k tv, hv_calls hv !! k = Some tv -> e ∈ v_seen (t_cur tv).
  Definition nofree w : Prop := forall e a, w_trace w !! e = Some a -> ac_kind a <> KFree.
  Definition full w : Prop := forall i h hv, at_ w i h hv -> lone (h_ex h) = true -> vle (top w) (t_cur (hv_own hv)).

  Definition VA w : Prop :=
    (L (w_arc w) = 0 -> cover w) /\ fresh w /\ wrote w /\ nofree w /\ full w /\ race_free w.

  Lemma lookup_upd_app {A} (l p : list A) i y j z :
    (i < length l)%nat -> (<[i := y]> l ++ p) !! j = Some z ->
    (j = i /\ z = y) \/ (j <> i /\ l !! j = Some z) \/ (exists k, j = (length l + k)%nat /\ p !! k = Some z).
  Proof.
    intros Hi H. apply lookup_app_Some in H as [H|[Hlen H]].
    - destruct (decide (j = i)) as [->|Hne].
      + rewrite list_lookup_insert in H by done. injection H as <-. by left.
      + rewrite list_lookup_insert_ne in H by done. tauto.
    - rewrite insert_length in *. right. right. exists (j - length l)%nat. split; [lia|done].
  Qed.

  Lemma race_free_snoc w w' a :
    race_free w -> w_trace w' = w_trace w ++ [a] ->
    (forall e a0, w_trace w !! e = Some a0 -> conflict (ac_kind a0) (ac_kind a) -> e ∈ ac_before a) -> race_free w'.
  Proof.
    intros Hr Ht Ha e1 e2 a1 a2 Hlt H1 H2 Hc. rewrite Ht in H1, H2.
    apply lookup_app_Some in H2 as [H2|[Hl H2]].
    - apply lookup_lt_Some in H2 as Hl2. rewrite lookup_app_l in H1 by lia. by eapply Hr.
    - apply list_lookup_singleton_Some in H2 as [He <-].
      rewrite lookup_app_l in H1 by lia. by eapply Ha.
  Qed.

  (** A call on handle [i] makes a step. *)
  Lemma VA_upd w w' i h hv h' hv' ps pv ko tv :
    PA (w_arc w) -> shape w -> VA w -> at_ w i h hv -> owns_x (h_ex h) = true ->
    a_hs (w_arc w') = <[i := h']> (a_hs (w_arc w)) ++ ps -> w_hv w' = <[i := hv']> (w_hv w) ++ pv ->
    (* the history *)
    (w_strong w' = w_strong w /\ (owns_x (h_ex h') = true -> forall V, hle hv' V -> hle hv V) \/
     (exists m', w_strong w' = w_strong w ++ [m']) /\
      (owns_x (h_ex h') = true -> forall V, hle hv' V -> (length (w_strong w) <= v_strong V)%nat)) ->
    (* what is known *)
    (L (w_arc w') = 0 -> L (w_arc w) = 0 /\ forall V m m', last (w_strong w) = Some m -> last (w_strong w') = Some m' ->
       vle (m_view m') V -> (owns_x (h_ex h') = true -> hle hv' V) ->
       vle (m_view m) V /\ hle hv V /\ (vle (top w) V -> vle (top w') V)) ->
    (* clones in progress *)
    (forall k old tv, h_sh h' !! k = Some (SClone1 old) -> hv_calls hv' !! k = Some tv ->
       (length (w_strong w') <= S (v_strong (t_cur tv)))%nat \/
       exists k0 old0 tv0, h_sh h !! k0 = Some (SClone1 old0) /\ hv_calls hv !! k0 = Some tv0 /\ vle (t_cur tv0) (t_cur tv)) ->
    (* the access *)
    w_trace w' = w_trace w ++ entry ko tv -> ko <> Some KFree ->
    (ko = Some KWrite -> a_strong (w_arc w) = 1 /\ ps = [] /\ hv_calls hv' = [] /\
       length (w_trace w) ∈ v_seen (t_cur (hv_own hv')) /\ vle (top w) (t_cur tv)) ->
    (ko <> None -> vle (t_cur (hv_own hv)) (t_cur tv) \/ exists k tv0, hv_calls hv !! k = Some tv0 /\ vle (t_cur tv0) (t_cur tv)) ->
    (owns_x (h_ex h') = true -> vle (t_cur (hv_own hv)) (t_cur (hv_own hv'))) ->
    (owns_x (h_ex h') = true -> forall k tv', hv_calls hv' !! k = Some tv' ->
       vle (t_cur (hv_own hv)) (t_cur tv') \/ exists k0 tv0, hv_calls hv !! k0 = Some tv0 /\ vle (t_cur tv0) (t_cur tv')) ->
    (lone (h_ex h') = true -> vle (top w') (t_cur (hv_own hv'))) ->
    (* a new handle *)
    (ps = [] /\ pv = [] \/ exists k old tv0 tv1, h_sh h !! k = Some (SClone1 old) /\ hv_calls hv !! k = Some tv0 /\
       vle (t_cur tv0) (t_cur tv1) /\ ps = [held] /\ pv = [HV tv1 []] /\ w_strong w' = w_strong w) ->
    VA w'.
  Proof.
    intros HPA Hsh (Hcov&Hfr&Hwr&Hnf&Hfu&Hra) Hat Hox Hhs Hhv Hstr Hknow Hcl Htr Hnk Hkw Htv Hown Hcalls Hlone Hpush.
    pose proof HPA as (Hd&Hf&Hs&Hp&Hl&HK&Hw&Hz&Hlo&Hinc&_). pose proof Hsh as (Hlen&Hlc&(ms&Hms&Hmv)&_).
    pose proof Hat as [Hi Hiv].
    assert (Hil : (i < length (a_hs (w_arc w)))%nat) by (by eapply lookup_lt_Some).
    (* the handles of the new configuration *)
    assert (Hcase : forall j h1 hv1, at_ w' j h1 hv1 ->
      (j = i /\ h1 = h' /\ hv1 = hv') \/ (j <> i /\ at_ w j h1 hv1) \/
      (exists k old tv0 tv1, h_sh h !! k = Some (SClone1 old) /\ hv_calls hv !! k = Some tv0 /\
       vle (t_cur tv0) (t_cur tv1) /\ h1 = held /\ hv1 = HV tv1 [] /\ ps = [held] /\ w_strong w' = w_strong w)).
    { intros j h1 hv1 [H1 H2]. rewrite Hhs in H1. rewrite Hhv in H2.
      apply lookup_upd_app in H1; [|done]. apply lookup_upd_app in H2; [|lia].
      destruct H1 as [[-> ->]|[[Hne H1]|(k1&Hj1&H1)]].
      - destruct H2 as [[_ ->]|[[? _]|(k2&?&_)]]; [by left|done|lia].
      - destruct H2 as [[? _]|[[_ H2]|(k2&Hj2&_)]]; [done|by right; left|].
        apply lookup_lt_Some in H1. lia.
      - destruct H2 as [[? _]|[[_ H2]|(k2&Hj2&H2)]]; [lia|apply lookup_lt_Some in H2; lia|].
        assert (k1 = k2) as -> by lia.
        destruct Hpush as [[-> ->]|(k&old&tv0&tv1&E1&E2&E3&-> & -> &E4)]; [done|]. right. right.
        apply list_lookup_singleton_Some in H1 as [_ <-]. apply list_lookup_singleton_Some in H2 as [_ <-].
        by exists k, old, tv0, tv1. }
    (* other handles exclude an only one *)
    assert (Htwo : forall j h1, j <> i -> a_hs (w_arc w) !! j = Some h1 -> owns_x (h_ex h1) = true -> a_strong (w_arc w) <> 1).
    { intros j h1 Hne Hj Ho E. pose proof (sumN_two own _ _ _ _ _ Hne Hj Hi) as S2. unfold own in S2 at 1 2.
      rewrite Ho, Hox in S2. unfold owners in Hs. lia. }
    assert (Hcl1 : forall j h1 k old, a_hs (w_arc w) !! j = Some h1 -> h_sh h1 !! k = Some (SClone1 old) -> a_strong (w_arc w) <> 1).
    { intros j h1 k old Hj Hk E. pose proof (cnt_lookup is_clone1 _ _ _ Hk eq_refl) as C1.
      destruct (decide (j = i)) as [->|Hne].
      - rewrite Hi in Hj. injection Hj as <-. pose proof (owner_pos _ _ _ Hi) as O. unfold own in O. rewrite Hox in O. lia.
      - pose proof (sumN_two own _ _ _ _ _ Hne Hj Hi) as S2. unfold own in S2 at 1 2. rewrite Hox in S2.
        unfold owners in Hs. lia. }
    assert (Hlast : forall t m, w_strong w !! t = Some m -> S t = length (w_strong w) -> m_val m = a_strong (w_arc w)).
    { intros t m Ht Hl1. rewrite last_lookup, <- Hl1 in Hms. simpl in Hms. congruence. }
    split; [|split; [|split; [|split; [|split]]]].
    - (* cover *)
      intros HL V m' Hm' HV Hall. destruct (Hknow HL) as [HL0 Hk].
      destruct (Hk V ms m' Hms Hm' HV) as (K1&K2&K3).
      { intros Ho. apply (Hall i h' hv'); [|done]. split.
        - rewrite Hhs, lookup_app_l by (rewrite insert_length; lia). by apply list_lookup_insert.
        - rewrite Hhv, lookup_app_l by (rewrite insert_length; lia). apply list_lookup_insert. lia. }
      apply K3. apply (Hcov HL0 V ms Hms K1). intros j h1 hv1 Hj Ho.
      destruct (decide (j = i)) as [->|Hne].
      + destruct Hj as [Hj1 Hj2]. rewrite Hi in Hj1. rewrite Hiv in Hj2. by simplify_eq.
      + destruct Hj as [Hj1 Hj2]. apply (Hall j h1 hv1); [|done].
        apply lookup_lt_Some in Hj1 as ?. split.
        * rewrite Hhs, lookup_app_l by (rewrite insert_length; lia). by rewrite list_lookup_insert_ne.
        * rewrite Hhv, lookup_app_l by (rewrite insert_length; lia). by rewrite list_lookup_insert_ne.
    - (* fresh *)
      intros t m Ht Hm Hlt j h1 hv1 Hj.
      assert (Hold : w_strong w' = w_strong w \/ exists m', w_strong w' = w_strong w ++ [m']) by tauto.
      assert (Ht0 : w_strong w !! t = Some m).
      { destruct Hold as [E|[m' E]]; rewrite E in *; [done|]. rewrite app_length in Hlt. simpl in Hlt.
        by rewrite lookup_app_l in Ht by lia. }
      assert (Hnew : (S t < length (w_strong w))%nat \/ a_strong (w_arc w) = 1 /\ (S t < length (w_strong w'))%nat /\ w_strong w' <> w_strong w).
      { destruct (decide (S t < length (w_strong w))%nat) as [?|Hge]; [by left|]. right.
        apply lookup_lt_Some in Ht0 as Htl. assert (El : S t = length (w_strong w)) by lia.
        split; [rewrite <- (Hlast _ _ Ht0 El); done|]. split; [done|]. intros E. rewrite E in Hlt. lia. }
      destruct (Hcase _ _ _ Hj) as [(->&->&->)|[[Hne Hj0]|(k&old&tv0&tv1&E1&E2&E3&->&->&Eps&Es)]].
      + split.
        * intros Ho V HV. destruct Hstr as [[E Hle]|[[m' E] Hle]].
          -- rewrite E in Hlt. destruct (Hfr _ _ Ht0 Hm Hlt _ _ _ Hat) as [H1 _]. apply H1; [done|]. by apply Hle.
          -- specialize (Hle Ho V HV). rewrite E, app_length in Hlt. simpl in Hlt. lia.
        * intros k old tv' Hk Hc. destruct (Hcl _ _ _ Hk Hc) as [Hge|(k0&old0&tv0&E1&E2&E3)]; [lia|].
          destruct Hnew as [Hn|(Hn&_)]; [|by destruct (Hcl1 _ _ _ _ Hi E1)].
          destruct (Hfr _ _ Ht0 Hm Hn _ _ _ Hat) as [_ H2]. specialize (H2 _ _ _ E1 E2).
          destruct E3 as (?&_). lia.
      + destruct Hj0 as [Hj1 Hj2]. destruct Hnew as [Hn|(Hn&_)].
        * by apply (Hfr _ _ Ht0 Hm Hn j).
        * split.
          -- intros Ho. by destruct (Htwo _ _ Hne Hj1).
          -- intros k old tv' Hk. by destruct (Hcl1 _ _ _ _ Hj1 Hk).
      + destruct Hnew as [Hn|(_&_&Hn)]; [|done]. destruct (Hfr _ _ Ht0 Hm Hn _ _ _ Hat) as [_ H2].
        specialize (H2 _ _ _ E1 E2). split; [|by intros ? ? ? ?].
        intros _ V [HV _]. simpl in HV. destruct E3 as (?&_). destruct HV as (?&_). lia.
    - (* wrote *)
      intros e a He Hka j h1 hv1 Hj Ho. rewrite Htr in He. apply lookup_app_Some in He as [He|[Hge He]].
      + pose proof (Hwr _ _ He Hka) as Hwr0.
        destruct (Hwr0 _ _ _ Hat Hox) as [W1 W2].
        destruct (Hcase _ _ _ Hj) as [(->&->&->)|[[Hne Hj0]|(k&old&tv0&tv1&E1&E2&E3&->&->&Eps&Es)]].
        * split.
          -- eapply vle_in; [exact W1|]. by apply Hown.
          -- intros k tv' Hk. destruct (Hcalls Ho _ _ Hk) as [H|(k0&tv0&H0&H)].
             ++ by eapply vle_in.
             ++ eapply vle_in; [by eapply W2|done].
        * by eapply Hwr0.
        * split; [|by intros ? ? ?]. simpl. eapply vle_in; [by eapply W2|done].
      + destruct ko as [k|]; [|done]. apply list_lookup_singleton_Some in He as [He <-]. simpl in Hka. subst k.
        destruct (Hkw eq_refl) as (K1&K2&K3&K4&_). assert (e = length (w_trace w)) as -> by lia.
        destruct (Hcase _ _ _ Hj) as [(->&->&->)|[[Hne [Hj0 _]]|(k&old&tv0&tv1&E1&E2&E3&->&->&Eps&Es)]].
        * split; [done|]. intros k tv' Hk. by rewrite K3 in Hk.
        * by destruct (Htwo _ _ Hne Hj0 Ho).
        * by rewrite K2 in Eps.
    - (* nofree *)
      intros e a He. rewrite Htr in He. apply lookup_app_Some in He as [He|[_ He]]; [by eapply Hnf|].
      destruct ko as [k|]; [|done]. apply list_lookup_singleton_Some in He as [_ <-]. simpl. congruence.
    - (* full *)
      intros j h1 hv1 Hj Hlo1.
      destruct (Hcase _ _ _ Hj) as [(->&->&->)|[[Hne [Hj0 _]]|(k&old&tv0&tv1&E1&E2&E3&->&->&Eps&Es)]].
      + by apply Hlone.
      + pose proof (Hlo _ _ Hj0 Hlo1) as E1. destruct (Htwo _ _ Hne Hj0); [|done]. by apply lone_owns.
      + done.
    - (* races *)
      destruct ko as [k|]; simpl in Htr; [|rewrite app_nil_r in Htr; unfold race_free; by rewrite Htr].
      eapply race_free_snoc; [done|done|]. simpl. intros e a0 He Hc.
      destruct k; [..|done].
      + exfalso. destruct (ac_kind a0) eqn:E; try done. by destruct (Hnf _ _ He).
      + destruct (ac_kind a0) eqn:E; try done; [|by destruct (Hnf _ _ He)].
        destruct (Hwr _ _ He E _ _ _ Hat Hox) as [W1 W2].
        destruct Htv as [H|(k&tv0&H0&H)]; [done| |].
        * by eapply vle_in.
        * eapply vle_in; [by eapply W2|done].
      + destruct (Hkw eq_refl) as (_&_&_&_&Ht). by eapply top_in.
  Qed.
End ord_inv.
