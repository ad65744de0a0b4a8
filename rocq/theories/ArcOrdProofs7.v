(** After [make_mut] has moved the value out and the allocator refuses: no mutable reference is ever given out. *)
From Verif Require Export ArcOrdProofs6 ArcFacts.
From Coq Require Import ZifyBool ZifyNat ZifyN.

Section ord_lost.
  Context {PR : Profile} {T : Type}.
  Notation conf := (aconf T).
  Notation wconf := (wconf T).
  Implicit Types (c : conf) (w : wconf) (h : ahandle) (x : xpc) (tv : tview) (hv : hview).
  Ltac hap := autorewrite with hap; simpl; rewrite ?N.add_0_r; try lia.

  Definition all_quiet c : Prop := Forall (fun h => quiet (h_ex h) = true) (a_hs c).

  Lemma quiet_step l c c' :
    1 <= a_weak c -> a_weak c + 2 <= usize_max -> all_quiet c -> astep l c = Some c' ->
    all_quiet c' /\ (a_weak c' = a_weak c \/ a_weak c' = a_weak c + 1).
  Proof.
    unfold all_quiet. intros H1 H2 Hq Hst.
    assert (E0 : (a_weak c =? 0) = false) by lia.
    destruct l as [i c0|i c0|i k flag|i flag|i y|i|]; simpl in Hst.
    7: { destruct (_ <? _); simplify_eq. split; [done|by left]. }
    all: destruct (a_hs c !! i) as [h|] eqn:Hi; [|done].
    all: pose proof (Forall_lookup_1 _ _ _ _ Hq Hi) as Hqi; simpl in Hqi.
    - destruct h as [x sh]. destruct x; try done. injection Hst as <-. split; [by apply Forall_insert|by left].
    - destruct h as [x sh]. destruct x, sh; try done. injection Hst as <-.
      split; [destruct c0; by apply Forall_insert|left; by destruct c0].
    - destruct (h_sh h !! k) as [s|] eqn:Hk; [|done]. injection Hst as <-.
      assert (Hs : forall sh, Forall (fun h => quiet (h_ex h) = true) (<[i := AHandle (h_ex h) sh]> (a_hs c))).
      { intros sh. by apply Forall_insert. }
      destruct s; simpl; unfold checked.
      + case_match; (split; [done || by apply Hs|by left]).
      + case_match; simpl; (split; [|by left]); [by apply Hs|]. apply Forall_app. split; [by apply Hs|by repeat constructor].
      + repeat case_match; (split; [done || by apply Hs|by left]).
      + case_match; (split; [done || by apply Hs|by left]).
      + destruct (mem_ok c); [|split; [done|by left]]. destruct (v =? usize_max); [split; [by apply Hs|by left]|].
        destruct (negb flag && (a_weak c =? v)) eqn:E; [|split; [done|by left]]. simpl. split; [by apply Hs|]. right. lia.
    - assert (Hs : forall y, quiet y = true -> Forall (fun h => quiet (h_ex h) = true) (<[i := AHandle y []]> (a_hs c))).
      { intros y Hy. by apply Forall_insert. }
      destruct (h_ex h) eqn:Ex; simpl in Hst; try done; injection Hst as <-; unfold checked; rewrite ?E0.
      all: try (destruct (mem_ok c); [|split; [done|by left]]).
      all: try (destruct (val_ok c); [|split; [done|by left]]).
      all: try (split; [|by left]; repeat case_match; simpl; by apply Hs).
      all: try (split; [|left; by repeat case_match]; repeat case_match; simpl; by apply Hs).
      (* XMInc *)
      destruct (e_checks && (v =? usize_max)); [split; [by apply Hs|by left]|].
      destruct (negb flag && (a_weak c =? v)) eqn:E; [|split; [by apply Hs|by left]].
      split; [by apply Hs|]. right. simpl. unfold wadd. rewrite N.mod_small; [lia|]. change (2 ^ 64) with (usize_max + 1). lia.
    - destruct h as [x sh]. destruct x, sh; done.
    - destruct h as [x sh]. destruct x; try done. injection Hst as <-. unfold checked. by destruct (mem_ok c); (split; [|by left]).
  Qed.

  (** The weak counter only ever shows values from one to [n] to those who know of its value number [p]. *)
  Definition wk (n : N) (p : nat) w : Prop :=
    (exists m, last (w_weak w) = Some m /\ m_val m = a_weak (w_arc w)) /\
    (forall t m, (p <= t)%nat -> w_weak w !! t = Some m -> 1 <= m_val m <= n) /\ (p < length (w_weak w))%nat.
  Definition hvw (p : nat) hv : Prop :=
    (p <= v_weak (t_cur (hv_own hv)))%nat /\ Forall (fun tv => (p <= v_weak (t_cur tv))%nat) (hv_calls hv).
  Definition PDw (n : N) w : Prop :=
    all_quiet (w_arc w) /\ exists p, wk n p w /\ forall i hv, w_hv w !! i = Some hv -> hvw p hv \/ a_hs (w_arc w) !! i = Some gone.

  Lemma wk_more n p w w' : wk n p w -> w_weak w' = w_weak w -> a_weak (w_arc w') = a_weak (w_arc w) -> wk (n + 1) p w'.
  Proof.
    intros (H1&H2&H3) E1 E2. unfold wk. rewrite E1, E2. split; [done|]. split; [|done].
    intros t m Ht Hm. specialize (H2 _ _ Ht Hm). lia.
  Qed.
  Lemma wk_now n p w : wk n p w -> 1 <= a_weak (w_arc w) <= n.
  Proof.
    intros ((m&Hm&E)&H2&H3). rewrite <- E. rewrite last_lookup in Hm. refine (H2 _ m _ Hm). lia.
  Qed.

  Definition keeps (hs : list ahandle) (a : action) (go : conf -> option conf) : Prop :=
    match a with
    | ARmw LWeak _ _ => True
    | AStore _ _ => False
    | _ => forall c c', a_hs c = hs -> 1 <= a_weak c -> go c = Some c' -> a_weak c' = a_weak c
    end.

  Lemma perform_wk a t tv w go tv' w' n p :
    (forall c c', 1 <= a_weak c -> a_weak c <= n -> all_quiet c -> go c = Some c' ->
       all_quiet c' /\ (a_weak c' = a_weak c \/ a_weak c' = a_weak c + 1)) ->
    keeps (a_hs (w_arc w)) a go -> all_quiet (w_arc w) -> wk n p w -> (p <= v_weak (t_cur tv))%nat ->
    perform a t tv w go = Some (tv', w') ->
    all_quiet (w_arc w') /\ wk (n + 1) p w' /\ (p <= v_weak (t_cur tv'))%nat /\ w_hv w' = w_hv w.
  Proof.
    intros Hgo Hk Hq Hwk Hp Hpf. pose proof (wk_now _ _ _ Hwk) as Hnow. pose proof Hwk as ((ml&Hml&Eml)&Hall&Hlt).
    apply perform_spec in Hpf as [(G1&G2&_) H].
    assert (Hqs : forall l r c, all_quiet c -> all_quiet (set_counter l r c)) by (by intros []).
    assert (Hdone : all_quiet (w_arc w') /\ wk (n + 1) p w').
    { destruct a as [|l o|l o f|l o|k]; simpl in H, Hk; [| | |done|].
      - destruct H as (H&_&Ew). destruct (Hgo (w_arc w) _ ltac:(lia) ltac:(lia) Hq H) as [Hq' _]. split; [done|].
        eapply wk_more; [done|done|]. apply (Hk (w_arc w) _ eq_refl ltac:(lia) H).
      - destruct H as (m&c1&Hm&Hpos&H&Ea&_&Ew&_). destruct l; simpl in *.
        + destruct (Hgo (set_strong (m_val m) (w_arc w)) _ ltac:(simpl; lia) ltac:(simpl; lia) (Hqs LStrong _ _ Hq) H) as [Hq' _]. rewrite Ea.
          split; [by apply (Hqs LStrong)|]. eapply wk_more; [done|done|]. rewrite Ea.
          apply (Hk (set_strong (m_val m) (w_arc w)) _ eq_refl ltac:(simpl; lia) H).
        + specialize (Hall _ _ (Nat.le_trans _ _ _ Hp Hpos) Hm).
          destruct (Hgo (set_weak (m_val m) (w_arc w)) _ ltac:(simpl; lia) ltac:(simpl; lia) (Hqs LWeak _ _ Hq) H) as [Hq' _]. rewrite Ea.
          split; [by apply (Hqs LWeak)|]. eapply wk_more; [done|done|]. by rewrite Ea.
      - destruct H as [[(m&c1&Hm&Hpos&H&Ea&_&Ew&_) _]|(m&m'&Hl&H&Hne&HW&_)].
        + destruct l; simpl in *.
          * destruct (Hgo (set_strong (m_val m) (w_arc w)) _ ltac:(simpl; lia) ltac:(simpl; lia) (Hqs LStrong _ _ Hq) H) as [Hq' _]. rewrite Ea.
            split; [by apply (Hqs LStrong)|]. eapply wk_more; [done|done|]. rewrite Ea.
            apply (Hk (set_strong (m_val m) (w_arc w)) _ eq_refl ltac:(simpl; lia) H).
          * specialize (Hall _ _ (Nat.le_trans _ _ _ Hp Hpos) Hm).
            destruct (Hgo (set_weak (m_val m) (w_arc w)) _ ltac:(simpl; lia) ltac:(simpl; lia) (Hqs LWeak _ _ Hq) H) as [Hq' _]. rewrite Ea.
            split; [by apply (Hqs LWeak)|]. eapply wk_more; [done|done|]. by rewrite Ea.
        + destruct HW as (W1&W2&_&W4). destruct l; simpl in *.
          * destruct (Hgo (set_strong (m_val m) (w_arc w)) _ ltac:(simpl; lia) ltac:(simpl; lia) (Hqs LStrong _ _ Hq) H) as [Hq' _].
            split; [done|]. eapply wk_more; [done|done|].
            apply (Hk (set_strong (m_val m) (w_arc w)) _ eq_refl ltac:(simpl; lia) H).
          * rewrite Hml in Hl. injection Hl as <-.
            destruct (Hgo (set_weak (m_val ml) (w_arc w)) _ ltac:(simpl; lia) ltac:(simpl; lia) (Hqs LWeak _ _ Hq) H) as [Hq' Hw]. simpl in Hw.
            split; [done|]. split; [|split].
            -- exists m'. rewrite W1, last_snoc. done.
            -- intros t0 m0 Ht0 Hm0. rewrite W1 in Hm0. apply lookup_app_Some in Hm0 as [Hm0|[_ Hm0]].
               ++ specialize (Hall _ _ Ht0 Hm0). lia.
               ++ apply list_lookup_singleton_Some in Hm0 as [_ <-]. lia.
            -- rewrite W1, app_length. simpl. lia.
      - destruct H as (H&_&Ew). destruct (Hgo (w_arc w) _ ltac:(lia) ltac:(lia) Hq H) as [Hq' _]. split; [done|].
        eapply wk_more; [done|done|]. apply (Hk (w_arc w) _ eq_refl ltac:(lia) H). }
    destruct Hdone. split; [done|]. split; [done|]. split; [|done].
    destruct G1 as (_&?&_). lia.
  Qed.

  Lemma keeps_s i k flag hs h s :
    hs !! i = Some h -> h_sh h !! k = Some s -> keeps hs (action_s s) (astep (LSh i k flag)).
  Proof.
    intros Hi Hk. unfold keeps. destruct s as [|old| | |v]; simpl; try done.
    5: destruct (v =? usize_max) eqn:Ev; [|done].
    all: intros c c' Hs _; rewrite Hs, Hi, Hk; intros [= <-]; simpl; unfold checked; rewrite ?Ev; by repeat case_match.
  Qed.
  Lemma keeps_x i flag hs x sh :
    hs !! i = Some (AHandle x sh) -> quiet x = true -> keeps hs (action_x x) (astep (LEx i flag)).
  Proof.
    intros Hi Hq. unfold keeps. destruct x; simpl; try done.
    all: intros c c' Hs _; rewrite Hs, Hi; simpl; try done; intros [= <-]; unfold checked; by repeat case_match.
  Qed.

  Lemma gone_stays l c c' j : astep l c = Some c' -> a_hs c !! j = Some gone -> a_hs c' !! j = Some gone.
  Proof.
    assert (H0 : forall i h h' (hs : list ahandle), hs !! i = Some h -> h <> gone -> hs !! j = Some gone -> <[i := h']> hs !! j = Some gone).
    { intros i h h' hs Hi Hne Hj. rewrite list_lookup_insert_ne; [done|]. congruence. }
    intros Hst Hj. destruct l as [i c0|i c0|i k flag|i flag|i y|i|]; simpl in Hst.
    7: { destruct (_ <? _); simplify_eq. done. }
    all: destruct (a_hs c !! i) as [h|] eqn:Hi; [|done].
    - destruct h as [x sh]. destruct x; try done. injection Hst as <-. by eapply H0.
    - destruct h as [x sh]. destruct x, sh; try done. injection Hst as <-. destruct c0; by eapply H0.
    - destruct (h_sh h !! k) as [s|] eqn:Hk; [|done]. injection Hst as <-.
      assert (Hne : h <> gone) by (intros ->; done).
      destruct s; simpl; unfold checked; repeat case_match; simpl; try done; try by eapply H0.
      apply lookup_app_l_Some. by eapply H0.
    - assert (Hne : h <> gone) by (intros ->; done).
      destruct (h_ex h) eqn:Ex; simpl in Hst; try done; injection Hst as <-; unfold checked; repeat case_match; simpl; try done; by eapply H0.
    - destruct h as [x sh]. destruct x, sh; try done. injection Hst as <-. unfold checked. case_match; [by eapply H0|done].
    - destruct h as [x sh]. destruct x; try done. injection Hst as <-. unfold checked. by case_match.
  Qed.
  Lemma perform_gone a t tv w go tv' w' j :
    (forall c c', go c = Some c' -> a_hs c !! j = Some gone -> a_hs c' !! j = Some gone) ->
    perform a t tv w go = Some (tv', w') -> a_hs (w_arc w) !! j = Some gone -> a_hs (w_arc w') !! j = Some gone.
  Proof.
    intros Hgo Hpf Hj. apply perform_spec in Hpf as [_ H].
    destruct a as [|l o|l o f|l o|k]; simpl in H.
    - destruct H as [H _]. by eapply Hgo.
    - destruct H as (m&c1&_&_&H&->&_). rewrite hs_set. eapply Hgo; [exact H|]. by rewrite hs_set.
    - destruct H as [[(m&c1&_&_&H&->&_) _]|(m&m'&_&H&_)]; rewrite ?hs_set; (eapply Hgo; [exact H|]); by rewrite hs_set.
    - destruct H as [H _]. by eapply Hgo.
    - destruct H as [H _]. by eapply Hgo.
  Qed.

  Lemma PDw_set n w w' i hv hv' pv p :
    all_quiet (w_arc w') -> wk (n + 1) p w' -> w_hv w !! i = Some hv -> w_hv w' = <[i := hv']> (w_hv w) ++ pv ->
    hvw p hv' -> Forall (hvw p) pv ->
    (forall j hv, w_hv w !! j = Some hv -> hvw p hv \/ a_hs (w_arc w) !! j = Some gone) ->
    (forall j, a_hs (w_arc w) !! j = Some gone -> a_hs (w_arc w') !! j = Some gone) -> PDw (n + 1) w'.
  Proof.
    intros Hq Hwk Hi Hhv H1 H2 Hall Hg. split; [done|]. exists p. split; [done|]. intros j hv1 Hj. rewrite Hhv in Hj.
    apply lookup_lt_Some in Hi. apply lookup_upd_app in Hj; [|done].
    destruct Hj as [[-> ->]|[[Hne Hj]|(k&_&Hk)]].
    - by left.
    - destruct (Hall _ _ Hj); [by left|right; by apply Hg].
    - left. by eapply Forall_lookup_1.
  Qed.

  Lemma PDw_step n l w w' : PDw n w -> n + 2 <= usize_max -> wstep l w = Some w' -> PDw (n + 1) w'.
  Proof.
    intros [Hq (p&Hwk&Hall)] Hn Hst. pose proof (wk_now _ _ _ Hwk) as Hnow.
    assert (Hgo : forall l c c', 1 <= a_weak c -> a_weak c <= n -> all_quiet c -> astep l c = Some c' ->
       all_quiet c' /\ (a_weak c' = a_weak c \/ a_weak c' = a_weak c + 1)).
    { intros l0 c c' H1 H2 H3 H4. apply (quiet_step l0); [done|lia|done|done]. }
    destruct l as [[i c0|i c0|i k flag|i flag|i y|i|] t|i l t]; unfold wstep in Hst.
    - destruct (astep (LBeginS i c0) (w_arc w)) as [c'|] eqn:Ha; [|done]. cbn [mbind option_bind] in Hst.
      destruct (w_hv w !! i) as [hv|] eqn:Hiv; [|done]. injection Hst as <-.
      destruct (Hgo _ _ _ ltac:(exact (proj1 Hnow)) (proj2 Hnow) Hq Ha) as [Hq' _].
      assert (Hhv : hvw p hv).
      { destruct (Hall _ _ Hiv) as [?|Hg]; [done|]. simpl in Ha. by rewrite Hg in Ha. }
      eapply (PDw_set n w _ i hv (HV (hv_own hv) (hv_calls hv ++ [TV (t_cur (hv_own hv)) v_none])) [] p); try done.
      + eapply wk_more; [done|done|]. simpl in Ha. destruct (a_hs (w_arc w) !! i) as [[[] sh]|]; try done. by injection Ha as <-.
      + simpl. by rewrite app_nil_r.
      + destruct Hhv as [H1 H2]. split; [done|]. simpl. apply Forall_app. split; [done|]. by repeat constructor.
      + intros j Hj. by eapply gone_stays.
    - destruct (astep (LBeginX i c0) (w_arc w)) as [c'|] eqn:Ha; [|done]. injection Hst as <-.
      destruct (Hgo _ _ _ ltac:(exact (proj1 Hnow)) (proj2 Hnow) Hq Ha) as [Hq' _]. split; [done|]. exists p. split.
      + eapply wk_more; [done|done|]. simpl in Ha. destruct (a_hs (w_arc w) !! i) as [[[] []]|]; try done. injection Ha as <-. by destruct c0.
      + intros j hv Hj. destruct (Hall _ _ Hj) as [?|Hg]; [by left|]. right. by eapply gone_stays.
    - destruct (a_hs (w_arc w) !! i) as [h|] eqn:Hi; [|done]. cbn [mbind option_bind] in Hst.
      destruct (h_sh h !! k) as [s|] eqn:Hk; [|done]. cbn [mbind option_bind] in Hst.
      destruct (w_hv w !! i) as [hv|] eqn:Hiv; [|done]. cbn [mbind option_bind] in Hst.
      destruct (hv_calls hv !! k) as [tv|] eqn:Hc; [|done]. cbn [mbind option_bind] in Hst.
      destruct (perform _ t _ w _) as [[tv' w1]|] eqn:Hpf; [|done]. cbn [mbind option_bind] in Hst. injection Hst as <-.
      destruct (Hall _ _ Hiv) as [[H1 H2]|Hg].
      2:{ rewrite Hi in Hg. injection Hg as ->. done. }
      pose proof (Forall_lookup_1 _ _ _ _ H2 Hc) as Htv. simpl in Htv.
      destruct (perform_wk _ _ _ _ _ _ _ n p (Hgo (LSh i k flag)) (keeps_s _ _ _ _ _ _ Hi Hk) Hq Hwk Htv Hpf) as (Q1&Q2&Q3&Q4).
      assert (Hg' : forall j, a_hs (w_arc w) !! j = Some gone -> a_hs (w_arc w1) !! j = Some gone).
      { intros j Hj. eapply perform_gone; [|exact Hpf|exact Hj]. intros ? ? E0. by eapply gone_stays. }
      unfold after_shared. rewrite Q4.
      set (ended := match a_hs (w_arc w1) !! i with Some h' => _ | None => false end). clearbody ended.
      eapply (PDw_set n w _ i hv (if ended then _ else _) (if (length (a_hs (w_arc w)) <? length (a_hs (w_arc w1)))%nat then _ else []) p); try done; simpl.
      + instantiate (1 := [HV (TV (t_cur tv') v_none) []]).
        instantiate (1 := HV (hv_own hv) (<[k := tv']> (hv_calls hv))).
        instantiate (1 := HV (TV (vjoin (t_cur (hv_own hv)) (t_cur tv')) (t_read (hv_own hv))) (delete k (hv_calls hv))).
        destruct (_ <? _)%nat; simpl; rewrite ?app_nil_r; by destruct ended.
      + destruct ended; split; simpl.
        * lia.
        * by apply Forall_delete.
        * done.
        * by apply Forall_insert.
      + destruct (_ <? _)%nat; [|constructor]. constructor; [|constructor]. split; [done|constructor].
    - destruct (a_hs (w_arc w) !! i) as [h|] eqn:Hi; [|done]. cbn [mbind option_bind] in Hst.
      destruct (w_hv w !! i) as [hv|] eqn:Hiv; [|done]. cbn [mbind option_bind] in Hst.
      destruct (perform _ t _ w _) as [[tv' w1]|] eqn:Hpf; [|done]. injection Hst as <-. destruct h as [x sh].
      assert (Hhv : hvw p hv).
      { destruct (Hall _ _ Hiv) as [?|Hg]; [done|]. rewrite Hi in Hg. injection Hg as -> ->.
        pose proof (perform_spec _ _ _ _ _ _ _ Hpf) as [_ [Ha _]]. simpl in Ha. by rewrite Hi in Ha. }
      destruct Hhv as [H1 H2].
      assert (Htv : (p <= v_weak (t_cur (fenced (fence_x x) (hv_own hv))))%nat).
      { destruct (fenced_le (fence_x x) (hv_own hv)) as (_&?&_). lia. }
      pose proof (Forall_lookup_1 _ _ _ _ Hq Hi) as Hqi. simpl in Hqi.
      destruct (perform_wk _ _ _ _ _ _ _ n p (Hgo (LEx i flag)) (keeps_x _ _ _ _ _ Hi Hqi) Hq Hwk Htv Hpf) as (Q1&Q2&Q3&Q4).
      eapply (PDw_set n w _ i hv (HV tv' (hv_calls hv)) [] p); try done; simpl.
      + by rewrite Q4, app_nil_r.
      + intros j Hj. eapply perform_gone; [|exact Hpf|exact Hj]. intros ? ? E0. by eapply gone_stays.
    - destruct (w_hv w !! i) as [hv|] eqn:Hiv; [|done]. cbn [mbind option_bind] in Hst.
      destruct (perform _ t _ w _) as [[tv' w1]|] eqn:Hpf; [|done].
      pose proof (perform_spec _ _ _ _ _ _ _ Hpf) as [_ [Ha _]]. simpl in Ha.
      destruct (a_hs (w_arc w) !! i) as [h|] eqn:Hi; [|done].
      pose proof (Forall_lookup_1 _ _ _ _ Hq Hi) as Hqi. simpl in Hqi. destruct h as [[] sh]; try done.
    - done.
    - destruct (astep LWeakDrop (w_arc w)) as [c'|] eqn:Ha; [|done]. injection Hst as <-. simpl in Ha.
      destruct (_ <? _); [|done]. injection Ha as <-. split; [done|]. exists p. split; [|done]. by eapply wk_more.
    - destruct (a_hs (w_arc w) !! i) as [h|] eqn:Hi; [|done]. destruct h as [[] sh]; try done.
      destruct (w_hv w !! i) as [hv|] eqn:Hiv; [|done]. cbn [mbind option_bind] in Hst.
      destruct (perform _ t _ w _) as [[tv' w1]|] eqn:Hpf; [|done]. injection Hst as <-.
      assert (Hhv : hvw p hv).
      { destruct (Hall _ _ Hiv) as [?|Hg]; [done|]. by rewrite Hi in Hg. }
      destruct Hhv as [H1 H2].
      eapply perform_wk in Hpf as Hpf'; try done.
      + destruct Hpf' as (Q1&Q2&Q3&Q4).
        eapply (PDw_set n w _ i hv (HV tv' (hv_calls hv)) [] p); try done; simpl.
        * by rewrite Q4, app_nil_r.
        * intros j Hj. eapply perform_gone; [|exact Hpf|exact Hj]. intros c c' [= <-] E0. unfold checked. by destruct (mem_ok c).
      + intros c c' _ _ Hqc [= <-]. unfold checked. destruct (mem_ok c); (split; [done|by left]).
      + intros c c' _ _ [= <-]. unfold checked. by destruct (mem_ok c).
  Qed.

  Lemma PDw_run n ls w w' : PDw n w -> n + llen ls + 2 <= usize_max -> wrun ls w = Some w' -> PDw (n + llen ls) w'.
  Proof.
    revert n w. induction ls as [|l ls IH]; simpl; intros n w HD Hn H.
    - injection H as <-. by rewrite N.add_0_r.
    - destruct (wstep l w) as [w1|] eqn:E; [|done].
      pose proof (PDw_step _ _ _ _ HD ltac:(lia) E) as HD1. pose proof (IH (n + 1) w1 HD1 ltac:(lia) H).
      replace (n + N.of_nat (S (length ls))) with (n + 1 + llen ls) by lia. exact H0.
  Qed.

  (** *** The refusal *)
  Notation lost c := (happened is_lost c).
  Lemma astep_lost l c c' : astep l c = Some c' -> lost c' = lost c \/
    exists i flag h, l = LEx i flag /\ a_hs c !! i = Some h /\ h_ex h = XMNew.
  Proof.
    intros Hst. destruct l as [i c0|i c0|i k flag|i flag|i y|i|]; simpl in Hst.
    7: { destruct (_ <? _); simplify_eq. left. hap. }
    all: destruct (a_hs c !! i) as [h|] eqn:Hi; [|done].
    - left. destruct h as [[] sh]; try done. by injection Hst as <-.
    - left. destruct h as [[] []]; try done. injection Hst as <-. destruct c0; hap.
    - left. destruct (h_sh h !! k) as [s|]; [|done]. injection Hst as <-. unfold step_shared, checked. repeat case_match; hap.
    - destruct (h_ex h) eqn:Ex; simpl in Hst; try done; injection Hst as <-.
      all: try (left; unfold checked; repeat case_match; hap; done).
      right. by exists i, flag, h.
    - left. destruct h as [[] []]; try done. injection Hst as <-. unfold checked. case_match; hap.
    - left. destruct h as [[] sh]; try done. injection Hst as <-. unfold checked. case_match; hap.
  Qed.
  Lemma perform_lost a t tv w go tv' w' :
    (forall c c', a_hs c = a_hs (w_arc w) -> go c = Some c' -> lost c' = lost c) ->
    perform a t tv w go = Some (tv', w') -> lost (w_arc w') = lost (w_arc w).
  Proof.
    intros Hgo Hpf. apply perform_spec in Hpf as [_ H].
    destruct a as [|l o|l o f|l o|k]; simpl in H.
    - destruct H as [H _]. by apply Hgo.
    - destruct H as (m&c1&_&_&H&->&_). rewrite hap_set. apply Hgo in H; [|by rewrite hs_set]. by rewrite H, hap_set.
    - destruct H as [[(m&c1&_&_&H&->&_) _]|(m&m'&_&H&_)]; rewrite ?hap_set; (apply Hgo in H; [|by rewrite hs_set]); by rewrite H, hap_set.
    - destruct H as [H _]. by apply Hgo.
    - destruct H as [H _]. by apply Hgo.
  Qed.
  Lemma wstep_lost l w w' : wstep l w = Some w' -> lost (w_arc w') = lost (w_arc w) \/
    exists i flag t h, l = WStep (LEx i flag) t /\ a_hs (w_arc w) !! i = Some h /\ h_ex h = XMNew.
  Proof.
    intros Hst. destruct l as [[i c0|i c0|i k flag|i flag|i y|i|] t|i l t]; unfold wstep in Hst.
    - left. destruct (astep _ _) as [c'|] eqn:Ha; [|done]. cbn [mbind option_bind] in Hst. destruct (w_hv w !! i); [|done].
      injection Hst as <-. apply astep_lost in Ha as [?|(?&?&?&[=]&_)]. done.
    - left. destruct (astep _ _) as [c'|] eqn:Ha; [|done]. injection Hst as <-. apply astep_lost in Ha as [?|(?&?&?&[=]&_)]. done.
    - left. destruct (a_hs (w_arc w) !! i) as [h|] eqn:Hi; [|done]. cbn [mbind option_bind] in Hst.
      destruct (h_sh h !! k) as [s|] eqn:Hk; [|done]. cbn [mbind option_bind] in Hst.
      destruct (w_hv w !! i) as [hv|] eqn:Hiv; [|done]. cbn [mbind option_bind] in Hst.
      destruct (hv_calls hv !! k) as [tv|] eqn:Hc; [|done]. cbn [mbind option_bind] in Hst.
      destruct (perform _ t _ w _) as [[tv' w1]|] eqn:Hpf; [|done]. cbn [mbind option_bind] in Hst. injection Hst as <-.
      eapply perform_lost in Hpf; [exact Hpf|]. intros c c' _ Ha. apply astep_lost in Ha as [?|(?&?&?&[=]&_)]. done.
    - destruct (a_hs (w_arc w) !! i) as [h|] eqn:Hi; [|done]. cbn [mbind option_bind] in Hst.
      destruct (w_hv w !! i) as [hv|] eqn:Hiv; [|done]. cbn [mbind option_bind] in Hst.
      destruct (perform _ t _ w _) as [[tv' w1]|] eqn:Hpf; [|done]. injection Hst as <-.
      assert (h_ex h = XMNew \/ h_ex h <> XMNew) as [Ex|Ex] by (destruct (h_ex h); (by left) || (by right)).
      { right. by exists i, flag, t, h. }
      left. eapply perform_lost in Hpf; [exact Hpf|]. intros c c' Hs Ha.
      apply astep_lost in Ha as [?|(j&f&h'&[= <- <-]&Hj&Hx)]; [done|]. rewrite Hs, Hi in Hj. congruence.
    - left. destruct (w_hv w !! i) as [hv|] eqn:Hiv; [|done]. cbn [mbind option_bind] in Hst.
      destruct (perform _ t _ w _) as [[tv' w1]|] eqn:Hpf; [|done]. injection Hst as <-.
      eapply perform_lost in Hpf; [exact Hpf|]. intros c c' _ Ha. apply astep_lost in Ha as [?|(?&?&?&[=]&_)]. done.
    - done.
    - left. destruct (astep _ _) as [c'|] eqn:Ha; [|done]. injection Hst as <-. apply astep_lost in Ha as [?|(?&?&?&[=]&_)]. done.
    - left. destruct (a_hs (w_arc w) !! i) as [h|] eqn:Hi; [|done]. destruct h as [[] sh]; try done.
      destruct (w_hv w !! i) as [hv|] eqn:Hiv; [|done]. cbn [mbind option_bind] in Hst.
      destruct (perform _ t _ w _) as [[tv' w1]|] eqn:Hpf; [|done]. injection Hst as <-.
      eapply perform_lost in Hpf; [exact Hpf|]. intros c c' _ [= <-]. unfold checked. destruct (mem_ok c); destruct l; hap.
  Qed.

  Lemma lost_wstep l w w' :
    WI w -> wstep l w = Some w' -> asize (w_arc w) + 4 <= usize_max -> lost (w_arc w) = 0 ->
    (WI w' /\ lost (w_arc w') = 0 /\ asize (w_arc w') <= asize (w_arc w) + 1) \/ PDw (asize (w_arc w)) w'.
  Proof.
    intros HI Hst Hsz H0. destruct (N.eq_dec (lost (w_arc w')) 0) as [E|E].
    { left. destruct (WI_step _ _ _ HI Hst Hsz E) as [? (_&_&?)]. done. }
    right. destruct (wstep_lost _ _ _ Hst) as [?|(i&flag&t&h&->&Hi&Hx)]; [congruence|].
    destruct HI as (Hsh&[[HA _]|[[HB HV]|[HC _]]]).
    - exfalso. destruct HA as (_&_&_&_&Hl&_). pose proof (Forall_lookup_1 _ _ _ _ Hl Hi) as [He _]. by rewrite Hx in He.
    - pose proof HB as (j&x&Hj&He&Ha&HL&Hs&Hw&Hf&Hd&HV0&HV1&_).
      destruct (decide (i = j)) as [->|Hne].
      2:{ exfalso. by rewrite (Ha _ _ Hne Hi) in Hx. }
      rewrite Hj in Hi. injection Hi as <-. simpl in Hx. subst x.
      unfold wstep in Hst. rewrite Hj in Hst. cbn [mbind option_bind] in Hst.
      destruct (w_hv w !! j) as [hv|] eqn:Hiv; [|done]. cbn [mbind option_bind h_ex action_x fence_x fenced perform] in Hst.
      simpl in Hst. rewrite Hj in Hst. simpl in Hst. injection Hst as <-.
      destruct HV as (_&_&HV). pose proof (HV j _ hv (conj Hj Hiv) eq_refl) as Htop. simpl in Htop.
      destruct flag; [|by simpl in E].
      assert (Hlen : (0 < length (w_weak w))%nat).
      { destruct Hsh as (_&_&_&(m&Hm&_)). destruct (w_weak w); [done|simpl; lia]. }
      split.
      + simpl. apply Forall_insert; [|done]. apply Forall_lookup. intros k h Hk. destruct (decide (k = j)) as [->|Hne].
        * rewrite Hj in Hk. by injection Hk as <-.
        * by rewrite (Ha _ _ Hne Hk).
      + exists (length (w_weak w) - 1)%nat. split.
        * split; [|split].
          -- destruct Hsh as (_&_&_&?). done.
          -- simpl. intros t0 m Ht Hm. pose proof Hm as Hm'. apply lookup_lt_Some in Hm'.
             rewrite (last_val LWeak w t0 m Hsh Hm) by (simpl; lia). simpl. rewrite Hw. split; [apply HV1; tauto|]. unfold asize. lia.
          -- simpl. lia.
        * intros k hv1 Hk. simpl in Hk. simpl. destruct (decide (k = j)) as [->|Hne].
          -- left. rewrite list_lookup_insert in Hk by (by eapply lookup_lt_Some). injection Hk as <-. split; simpl.
             ++ by destruct Htop as (_&?&_).
             ++ rewrite (calls_nil _ _ _ _ Hsh (conj Hj Hiv)). constructor.
          -- right. rewrite list_lookup_insert_ne in Hk by done. rewrite list_lookup_insert_ne by done.
             destruct Hsh as (Hl&_). apply lookup_lt_Some in Hk. rewrite Hl in Hk.
             destruct (lookup_lt_is_Some_2 _ _ Hk) as [h Hh]. rewrite Hh. by rewrite (Ha _ _ Hne Hh).
    - exfalso. destruct HC as [Hg _]. pose proof (Forall_lookup_1 _ _ _ _ Hg Hi) as ->. done.
  Qed.

  Lemma any_wrun ls w w' :
    WI w -> lost (w_arc w) = 0 -> wrun ls w = Some w' -> asize (w_arc w) + llen ls + 4 <= usize_max ->
    (WI w' /\ lost (w_arc w') = 0) \/ exists n, PDw n w'.
  Proof.
    revert w. induction ls as [|l ls IH]; simpl; intros w HI H0 H Hsz; [injection H as <-; by left|].
    destruct (wstep l w) as [w1|] eqn:E; [|done].
    destruct (lost_wstep _ _ _ HI E) as [(HI1&H1&Hs)|HD]; [lia|done| |].
    - apply (IH w1); [done|done|done|lia].
    - right. eexists. eapply PDw_run; [exact HD| |exact H]. lia.
  Qed.
End ord_lost.
