(** Runs without [make_mut], and without [forget], [downgrade] and panicking destructors. *)
From Verif Require Export ArcOrdProofs7.
From Coq Require Import ZifyBool ZifyNat ZifyN.

Section ord_plain.
  Context {PR : Profile} {T : Type}.
  Notation conf := (aconf T).
  Notation wconf := (wconf T).
  Implicit Types (c : conf) (w : wconf) (h : ahandle) (x : xpc) (tv : tview) (hv : hview).
  Ltac hap := autorewrite with hap; simpl; rewrite ?N.add_0_r; try lia.

  (** What a step does to the handles and the log does not depend on the counters. *)
  Lemma perform_hl (R : list ahandle -> list (aevent_ T) -> Prop) a t tv w go tv' w' :
    (forall c c', a_hs c = a_hs (w_arc w) -> a_log c = a_log (w_arc w) -> go c = Some c' -> R (a_hs c') (a_log c')) ->
    perform a t tv w go = Some (tv', w') -> R (a_hs (w_arc w')) (a_log (w_arc w')).
  Proof.
    intros Hgo Hpf. apply perform_spec in Hpf as [_ H].
    assert (Hl : forall l n c, a_log (set_counter l n c) = a_log c) by (by intros []).
    destruct a as [|l o|l o f|l o|k]; simpl in H.
    - destruct H as [H _]. by eapply Hgo.
    - destruct H as (m&c1&_&_&H&->&_). rewrite hs_set, Hl. eapply Hgo; [| |exact H]; by rewrite ?hs_set, ?Hl.
    - destruct H as [[(m&c1&_&_&H&->&_) _]|(m&m'&_&H&_)]; rewrite ?hs_set, ?Hl; (eapply Hgo; [| |exact H]; by rewrite ?hs_set, ?Hl).
    - destruct H as [H _]. by eapply Hgo.
    - destruct H as [H _]. by eapply Hgo.
  Qed.
  Definition counted (hs : list ahandle) (lg : list (aevent_ T)) hs' lg' : Prop :=
    hs' = hs /\ exists e, lg' = lg ++ [e] /\ match e with AStrong _ | AWeakCount _ | ABad => True | _ => False end.
  Lemma wstep_hl (R : list ahandle -> list (aevent_ T) -> Prop) l w w' :
    wstep l w = Some w' ->
    match l with
    | WStep l _ => forall c c', a_hs c = a_hs (w_arc w) -> a_log c = a_log (w_arc w) -> astep l c = Some c' -> R (a_hs c') (a_log c')
    | WCount _ _ _ => forall hs' lg', counted (a_hs (w_arc w)) (a_log (w_arc w)) hs' lg' -> R hs' lg'
    end -> R (a_hs (w_arc w')) (a_log (w_arc w')).
  Proof.
    intros Hst HR. destruct l as [[i c0|i c0|i k flag|i flag|i y|i|] t|i l t]; unfold wstep in Hst.
    - destruct (astep _ _) as [c'|] eqn:Ha; [|done]. cbn [mbind option_bind] in Hst. destruct (w_hv w !! i); [|done].
      injection Hst as <-. by eapply (HR (w_arc w)).
    - destruct (astep _ _) as [c'|] eqn:Ha; [|done]. injection Hst as <-. by eapply (HR (w_arc w)).
    - destruct (a_hs (w_arc w) !! i) as [h|] eqn:Hi; [|done]. cbn [mbind option_bind] in Hst.
      destruct (h_sh h !! k) as [s|] eqn:Hk; [|done]. cbn [mbind option_bind] in Hst.
      destruct (w_hv w !! i) as [hv|] eqn:Hiv; [|done]. cbn [mbind option_bind] in Hst.
      destruct (hv_calls hv !! k) as [tv|] eqn:Hc; [|done]. cbn [mbind option_bind] in Hst.
      destruct (perform _ t _ w _) as [[tv' w1]|] eqn:Hpf; [|done]. cbn [mbind option_bind] in Hst. injection Hst as <-.
      eapply perform_hl in Hpf; [exact Hpf|exact HR].
    - destruct (a_hs (w_arc w) !! i) as [h|] eqn:Hi; [|done]. cbn [mbind option_bind] in Hst.
      destruct (w_hv w !! i) as [hv|] eqn:Hiv; [|done]. cbn [mbind option_bind] in Hst.
      destruct (perform _ t _ w _) as [[tv' w1]|] eqn:Hpf; [|done]. injection Hst as <-.
      eapply perform_hl in Hpf; [exact Hpf|exact HR].
    - destruct (w_hv w !! i) as [hv|] eqn:Hiv; [|done]. cbn [mbind option_bind] in Hst.
      destruct (perform _ t _ w _) as [[tv' w1]|] eqn:Hpf; [|done]. injection Hst as <-.
      eapply perform_hl in Hpf; [exact Hpf|exact HR].
    - done.
    - destruct (astep _ _) as [c'|] eqn:Ha; [|done]. injection Hst as <-. by eapply (HR (w_arc w)).
    - destruct (a_hs (w_arc w) !! i) as [h|] eqn:Hi; [|done]. destruct h as [[] sh]; try done.
      destruct (w_hv w !! i) as [hv|] eqn:Hiv; [|done]. cbn [mbind option_bind] in Hst.
      destruct (perform _ t _ w _) as [[tv' w1]|] eqn:Hpf; [|done]. injection Hst as <-.
      eapply perform_hl in Hpf; [exact Hpf|]. intros c c' E1 E2 [= <-]. apply HR. unfold checked.
      rewrite <- E1, <- E2. destruct (mem_ok c); (split; [done|]); eexists; (split; [done|]); by destruct l.
  Qed.

  Lemma wrun_snoc ls l w w' : wrun (ls ++ [l]) w = Some w' <-> exists w1, wrun ls w = Some w1 /\ wstep l w1 = Some w'.
  Proof.
    rewrite wrun_app. split; intros (c1&H1&H2); exists c1; (split; [done|]); simpl in *.
    - destruct (wstep l c1) as [?|]; [exact H2|done].
    - by rewrite H2.
  Qed.

  (** *** Without [make_mut] *)
  Definition px (x : xpc) : bool :=
    match x with
    | XM0 | XM1 _ | XMInc _ | XMZero | XMTake | XMNew | XMClone | XMNewC | XDropMoved => false
    | _ => true
    end.
  Definition ph h : Prop := px (h_ex h) = true.
  Lemma plain_ev l c c' :
    astep l c = Some c' -> (forall i, l <> LBeginX i CMakeMut) -> Forall ph (a_hs c) ->
    Forall ph (a_hs c') /\ cnt is_lost (a_log c') = cnt is_lost (a_log c).
  Proof.
    change (cnt is_lost (a_log c')) with (happened is_lost c'). change (cnt is_lost (a_log c)) with (happened is_lost c).
    intros Hs Hl Hp.
    assert (Hset : forall i h, ph h -> Forall ph (<[i := h]> (a_hs c))) by (intros i h Hh; by apply Forall_insert).
    destruct l as [i c0|i c0|i k f|i f|i y|i|]; simpl in Hs.
    7: { destruct (_ <? _); [|done]. injection Hs as <-. split; [done|hap]. }
    all: destruct (a_hs c !! i) as [h|] eqn:Hi; [|done].
    all: pose proof (Forall_lookup_1 _ _ _ _ Hp Hi) as Hh.
    - destruct h as [[] sh]; try done. injection Hs as <-. split; [by apply Hset|hap].
    - destruct h as [[] []]; try done. injection Hs as <-. destruct c0; try (by destruct (Hl i)); (split; [by apply Hset|hap]).
    - destruct (h_sh h !! k) as [s|]; [|done]. injection Hs as <-.
      assert (Hk : forall sh, ph (AHandle (h_ex h) sh)) by (intros sh; exact Hh).
      destruct s; simpl; unfold checked; repeat case_match; (split; [|hap]); try done; try (by apply Hset).
      apply Forall_app. split; [by apply Hset|]. by repeat constructor.
    - unfold ph in Hh. destruct (h_ex h); simpl in Hh; try done; simpl in Hs; try done; injection Hs as <-;
        unfold checked; repeat case_match; (split; [|hap]); try done; by apply Hset.
    - destruct h as [[] []]; try done. injection Hs as <-. unfold checked. case_match; (split; [|hap]); try done; by apply Hset.
    - destruct h as [[] sh]; try done. injection Hs as <-. unfold checked. case_match; (split; [done|hap]).
  Qed.

  Lemma w_plain_run (v : T) ls w : wrun ls (w_init v) = Some w -> w_plain ls ->
    Forall ph (a_hs (w_arc w)) /\ cnt is_lost (a_log (w_arc w)) = 0.
  Proof.
    revert w. induction ls as [|l ls IH] using rev_ind; intros w Hr Hp.
    { injection Hr as <-. split; [by repeat constructor|done]. }
    apply wrun_snoc in Hr as (w1&Hr&Hst). destruct (IH w1 Hr) as [H1 H2].
    { intros i t Hi. apply (Hp i t), elem_of_app. by left. }
    eapply (wstep_hl (fun hs lg => Forall ph hs /\ cnt is_lost lg = 0) _ _ _ Hst). destruct l as [l t|i l t].
    - intros c c' E1 E2 Ha. destruct (plain_ev _ _ _ Ha) as [G1 G2].
      + intros i ->. apply (Hp i t), elem_of_app. right. by left.
      + by rewrite E1.
      + split; [done|]. by rewrite G2, E2.
    - intros hs' lg' (->&e&->&He). split; [done|]. rewrite cnt_app, H2. by destruct e.
  Qed.

  (** *** Tidy runs *)
  Definition nd_s (s : spc) : bool := match s with SDown0 | SDown _ => false | _ => true end.
  Definition th h : Prop := px (h_ex h) = true /\ Forall (fun s => nd_s s = true) (h_sh h).
  Definition is_untidy (e : aevent_ T) : bool := is_weak_made e || is_forget e || is_drop_panic e.
  Lemma tidy_ev l c c' :
    astep l c = Some c' -> (forall i, l <> LBeginX i CMakeMut) -> (forall i, l <> LBeginX i CForget) ->
    (forall i, l <> LBeginS i CDowngrade) -> (forall i, l <> LEx i true) -> Forall th (a_hs c) ->
    Forall th (a_hs c') /\ cnt is_untidy (a_log c') = cnt is_untidy (a_log c).
  Proof.
    change (cnt is_untidy (a_log c')) with (happened is_untidy c'). change (cnt is_untidy (a_log c)) with (happened is_untidy c).
    intros Hs Hl Hl2 Hl3 Hl4 Hp.
    assert (Hset : forall i h, th h -> Forall th (<[i := h]> (a_hs c))) by (intros i h Hh; by apply Forall_insert).
    assert (Hset0 : forall i x, px x = true -> Forall th (<[i := AHandle x []]> (a_hs c))).
    { intros i x Hx. apply Hset. split; [done|constructor]. }
    destruct l as [i c0|i c0|i k f|i f|i y|i|]; simpl in Hs.
    7: { destruct (_ <? _); [|done]. injection Hs as <-. split; [done|hap]. }
    all: destruct (a_hs c !! i) as [h|] eqn:Hi; [|done].
    all: pose proof (Forall_lookup_1 _ _ _ _ Hp Hi) as [Hh Hhs].
    - destruct h as [[] sh]; try done. injection Hs as <-. split; [|hap]. apply Hset. split; [done|].
      simpl. apply Forall_app. split; [done|]. constructor; [|constructor]. destruct c0; [done|done|]. by destruct (Hl3 i).
    - destruct h as [[] []]; try done. injection Hs as <-. destruct c0; try (by destruct (Hl i)); try (by destruct (Hl2 i)); (split; [by apply Hset0|hap]).
    - destruct (h_sh h !! k) as [s|] eqn:Hk; [|done]. injection Hs as <-.
      pose proof (Forall_lookup_1 _ _ _ _ Hhs Hk) as Hsk. simpl in Hsk.
      assert (Hins : forall s', nd_s s' = true -> th (AHandle (h_ex h) (<[k := s']> (h_sh h)))).
      { intros s' Hs'. split; [done|]. by apply Forall_insert. }
      assert (Hdel : th (AHandle (h_ex h) (delete k (h_sh h)))) by (split; [done|by apply Forall_delete]).
      destruct s; simpl in Hsk; try done; simpl; unfold checked; repeat case_match; (split; [|hap]); try done;
        try (by apply Hset); try (by apply Hset, Hins).
      apply Forall_app. split; [by apply Hset|]. constructor; [|constructor]. split; [done|constructor].
    - assert (f = false) as -> by (destruct f; [by destruct (Hl4 i)|done]).
      destruct (h_ex h); simpl in Hh; try done; simpl in Hs; try done; injection Hs as <-;
        unfold checked; repeat case_match; (split; [|hap]); try done; by apply Hset0.
    - destruct h as [[] []]; try done. injection Hs as <-. unfold checked. case_match; (split; [|hap]); try done; by apply Hset0.
    - destruct h as [[] sh]; try done. injection Hs as <-. unfold checked. case_match; (split; [done|hap]).
  Qed.
  Lemma w_tidy_run (v : T) ls w : wrun ls (w_init v) = Some w -> w_plain ls -> w_tidy ls ->
    Forall th (a_hs (w_arc w)) /\ cnt is_untidy (a_log (w_arc w)) = 0.
  Proof.
    revert w. induction ls as [|l ls IH] using rev_ind; intros w Hr Hp (Ht1&Ht2&Ht3).
    { injection Hr as <-. split; [|done]. constructor; [|constructor]. split; [done|constructor]. }
    apply wrun_snoc in Hr as (w1&Hr&Hst). destruct (IH w1 Hr) as [H1 H2].
    { intros i t Hi. apply (Hp i t), elem_of_app. by left. }
    { split; [|split]; intros i t Hi; [apply (Ht1 i t)|apply (Ht2 i t)|apply (Ht3 i t)]; apply elem_of_app; by left. }
    eapply (wstep_hl (fun hs lg => Forall th hs /\ cnt is_untidy lg = 0) _ _ _ Hst). destruct l as [l t|i l t].
    - intros c c' E1 E2 Ha.
      assert (Hin : forall l', l = l' -> WStep l' t ∈ ls ++ [WStep l t]).
      { intros l' <-. apply elem_of_app. right. by left. }
      destruct (tidy_ev _ _ _ Ha) as [G1 G2].
      + intros i E. by apply (Hp i t), Hin.
      + intros i E. by apply (Ht1 i t), Hin.
      + intros i E. by apply (Ht2 i t), Hin.
      + intros i E. by apply (Ht3 i t), Hin.
      + by rewrite E1.
      + split; [done|]. by rewrite G2, E2.
    - intros hs' lg' (->&e&->&He). split; [done|]. rewrite cnt_app, H2. by destruct e.
  Qed.
  Lemma untidy_0 (lg : list (aevent_ T)) : cnt is_untidy lg = 0 ->
    cnt is_weak_made lg = 0 /\ cnt is_forget lg = 0 /\ cnt is_drop_panic lg = 0.
  Proof.
    induction lg as [|e lg IH]; [done|]. intros H. unfold cnt in *. simpl in *.
    destruct e; simpl in *; try lia; (by apply IH).
  Qed.
End ord_plain.
