(** Every run of [ArcModel] is a run of [ArcOrdModel] in which the loads return the latest values. *)
From Verif Require Export ArcOrdProofs6.
From Coq Require Import ZifyBool ZifyNat ZifyN.

Section ord_sc.
  Context {PR : Profile} {T : Type}.
  Notation conf := (aconf T).
  Notation wconf := (wconf T).
  Implicit Types (c : conf) (w : wconf) (h : ahandle) (x : xpc) (tv : tview) (hv : hview) (v : view).

  Definition oth (l : loc) : loc := match l with LStrong => LWeak | LWeak => LStrong end.
  Definition bnd w v : Prop := (v_strong v < length (w_strong w))%nat /\ (v_weak v < length (w_weak w))%nat.
  Definition bt w tv : Prop := bnd w (t_cur tv) /\ bnd w (t_read tv).
  Definition bh w hv : Prop := bt w (hv_own hv) /\ Forall (bt w) (hv_calls hv).
  Definition msgs w : Prop := forall l m, m ∈ hist l w -> bnd w (m_view m).
  Definition hok w : Prop :=
    (exists m, last (w_strong w) = Some m /\ m_val m = a_strong (w_arc w)) /\
    (exists m, last (w_weak w) = Some m /\ m_val m = a_weak (w_arc w)).
  Definition NW w : Prop := shape w /\ Forall held_ok (a_hs (w_arc w)) /\ msgs w /\ Forall (bh w) (w_hv w).
  Definition longer w w' : Prop :=
    (length (w_strong w) <= length (w_strong w'))%nat /\ (length (w_weak w) <= length (w_weak w'))%nat.

  Lemma bnd_le w w' v : longer w w' -> bnd w v -> bnd w' v.
  Proof. intros [H1 H2] [H3 H4]. split; lia. Qed.
  Lemma bt_le w w' tv : longer w w' -> bt w tv -> bt w' tv.
  Proof. intros Hl [H1 H2]. split; by eapply bnd_le. Qed.
  Lemma bh_le w w' hv : longer w w' -> bh w hv -> bh w' hv.
  Proof. intros Hl [H1 H2]. split; [by eapply bt_le|]. eapply Forall_impl; [exact H2|]. intros. by eapply bt_le. Qed.
  Lemma bnd_join w v1 v2 : bnd w v1 -> bnd w v2 -> bnd w (vjoin v1 v2).
  Proof. intros [H1 H2] [H3 H4]. split; simpl; lia. Qed.
  Lemma bnd_at w l n v : bnd w v -> (n < length (hist l w))%nat -> bnd w (v_at l n v).
  Proof. intros [H1 H2] H. destruct l; split; simpl in *; lia. Qed.
  Lemma hok_pos l w : hok w -> (0 < length (hist l w))%nat.
  Proof. intros [(m&Hm&_) (m'&Hm'&_)]. destruct l; simpl; [destruct (w_strong w)|destruct (w_weak w)]; simpl in *; done || lia. Qed.
  Lemma hok_last l w : hok w -> exists m, hist l w !! (length (hist l w) - 1)%nat = Some m /\ m_val m = counter l (w_arc w).
  Proof.
    intros [(m&Hm&E) (m'&Hm'&E')]. rewrite last_lookup in Hm, Hm'.
    destruct l; simpl; [exists m|exists m']; (split; [|done]); rewrite <- ?Hm, <- ?Hm'; f_equal; lia.
  Qed.
  Lemma bnd_none w : hok w -> bnd w v_none.
  Proof. intros H. split; [apply (hok_pos LStrong)|apply (hok_pos LWeak)]; done. Qed.
  Lemma bt_made w tv : hok w -> bt w tv -> bt w (made w tv).
  Proof.
    intros Hk [H1 H2]. split; [|done]. apply bnd_join; [done|]. split; simpl; [apply (hok_pos LStrong)|apply (hok_pos LWeak)]; done.
  Qed.
  Lemma bt_got w l o t m tv : bt w tv -> (t < length (hist l w))%nat -> bnd w (m_view m) -> bt w (got l o t m tv).
  Proof.
    intros [H1 H2] Ht Hm. split; simpl.
    - destruct (acquires o); [apply bnd_join; [|done]|]; by apply bnd_at.
    - by apply bnd_join.
  Qed.
  Lemma set_same l c : set_counter l (counter l c) c = c.
  Proof. by destruct l, c. Qed.
  Lemma bt_fenced w f tv : bt w tv -> bt w (fenced f tv).
  Proof.
    intros [H1 H2]. destruct f as [o|]; simpl; [|done]. destruct (acquires o); [|done]. split; simpl; [by apply bnd_join|done].
  Qed.

  (** What a step may do to the counters. *)
  Definition fx (a : action) c c' : Prop :=
    match a with
    | ARmw l _ _ | AStore l _ => counter (oth l) c' = counter (oth l) c
    | _ => a_strong c' = a_strong c /\ a_weak c' = a_weak c
    end.
  Definition now (a : action) w : nat :=
    match a with ALoad l _ | ARmw l _ _ => (length (hist l w) - 1)%nat | _ => 0%nat end.

  Lemma longer_append l m w : longer w (append l m w).
  Proof. destruct l; split; simpl; rewrite ?app_length; simpl; lia. Qed.
  Lemma append_bnd l m w v : (v_pos l v <= length (hist l w))%nat -> (v_pos (oth l) v < length (hist (oth l) w))%nat -> bnd (append l m w) v.
  Proof. intros H1 H2. destruct l; split; simpl in *; rewrite ?app_length; simpl; lia. Qed.

  Lemma msgs_eq w w' : msgs w -> w_strong w' = w_strong w -> w_weak w' = w_weak w -> msgs w'.
  Proof. intros H E1 E2 l m Hm. unfold bnd. rewrite E1, E2. apply (H l). by destruct l; simpl in *; rewrite <- ?E1, <- ?E2. Qed.
  Lemma bt_eq w w' tv : bt w tv -> w_strong w' = w_strong w -> w_weak w' = w_weak w -> bt w' tv.
  Proof. intros H E1 E2. unfold bt, bnd. by rewrite E1, E2. Qed.
  Lemma msgs_append l m w : msgs w -> bnd (append l m w) (m_view m) -> msgs (append l m w).
  Proof.
    intros H Hm l' m' Hin. destruct (decide (m' = m)) as [->|Hne]; [done|] || idtac.
    assert (m' = m \/ m' ∈ hist l' w) as [->|Hin'].
    { destruct l, l'; simpl in *; try (by right); apply elem_of_app in Hin as [?|?%elem_of_list_singleton]; auto. }
    - done.
    - eapply bnd_le; [apply longer_append|]. by eapply H.
  Qed.

  Definition now_ok tv w c' tv' w' : Prop :=
    w_arc w' = c' /\ w_hv w' = w_hv w /\ hok w' /\ bt w' tv' /\ msgs w' /\ longer w w'.

  Lemma write_now l o tv v0 w w0 c' :
    hok w -> msgs w -> bt w tv -> bnd w v0 -> counter (oth l) c' = counter (oth l) (w_arc w) ->
    w_arc w0 = c' -> w_hv w0 = w_hv w -> w_strong w0 = w_strong w -> w_weak w0 = w_weak w ->
    now_ok tv w c' (TV (v_at l (length (hist l w)) (t_cur tv)) (t_read tv))
      (append l (message l o (length (hist l w)) v0 (v_at l (length (hist l w)) (t_cur tv)) (counter l c')) w0).
  Proof.
    intros Hk Hms [Hb1 Hb2] H0 Hc E1 E2 E3 E4.
    set (n := length (hist l w)). set (m := message _ _ _ _ _ _).
    assert (Hlen : (0 < length (hist l w))%nat) by (by apply hok_pos).
    assert (Hat : forall v, bnd w v -> bnd (append l m w0) (v_at l n v)).
    { intros v [Hv1 Hv2]. apply append_bnd; destruct l; simpl in *; unfold n; rewrite ?E3, ?E4; lia. }
    assert (Hlg : longer w (append l m w0)) by (destruct l; split; simpl; rewrite ?app_length, ?E3, ?E4; simpl; lia).
    split; [by destruct l|]. split; [by destruct l|]. split; [|split; [|split; [|done]]].
    - destruct Hk as [(ms&Hs&Es) (mw&Hw&Ew)]. unfold hok. destruct l; simpl in *; rewrite last_snoc, E1, ?E3, ?E4.
      + split; [by eexists|]. exists mw. by rewrite Hc.
      + split; [|by eexists]. exists ms. by rewrite Hc.
    - split; simpl; [by apply Hat|]. by eapply bnd_le.
    - apply msgs_append; [by eapply msgs_eq|].
      assert (exists V, bnd w V /\ m_view m = v_at l n (vjoin v0 V)) as (V&HV&->).
      { unfold m, message. simpl. destruct (releases o); [exists (t_cur tv)|exists v_none]; (split; [by try apply bnd_none|]); [|done].
        destruct l; unfold vjoin; simpl; f_equal; lia. }
      apply Hat. by apply bnd_join.
  Qed.

  Lemma perform_now a tv w go c' :
    hok w -> msgs w -> bt w tv -> go (w_arc w) = Some c' -> fx a (w_arc w) c' ->
    exists tv' w', perform a (now a w) tv w go = Some (tv', w') /\ now_ok tv w c' tv' w'.
  Proof.
    intros Hk Hms Hb Hgo Hf.
    assert (Hsame : forall w', w_strong w' = w_strong w -> w_weak w' = w_weak w -> longer w w') by
      (intros w' E1 E2; split; rewrite ?E1, ?E2; lia).
    assert (Hkeep : forall w' tv', w_arc w' = c' -> w_hv w' = w_hv w -> w_strong w' = w_strong w -> w_weak w' = w_weak w ->
      a_strong c' = a_strong (w_arc w) -> a_weak c' = a_weak (w_arc w) -> bt w tv' -> now_ok tv w c' tv' w').
    { intros w' tv' E1 E2 E3 E4 E5 E6 Hb'. split; [done|]. split; [done|]. split.
      - unfold hok. rewrite E1, E3, E4, E5, E6. done.
      - split; [by eapply bt_eq|]. split; [by eapply msgs_eq|]. by apply Hsame. }
    destruct a as [|l o|l o f|l o|k]; simpl in Hf; simpl.
    - rewrite Hgo. simpl. eexists _, _. split; [done|]. destruct Hf. by apply Hkeep.
    - destruct (hok_last l w Hk) as (m&Hm&Em). rewrite Hm. simpl.
      assert (Hp : (v_pos l (t_cur tv) <=? length (hist l w) - 1)%nat = true).
      { destruct Hb as [[Hb1 Hb2] _]. destruct l; simpl in *; lia. }
      rewrite Hp, Em, set_same, Hgo. simpl. eexists _, _. split; [done|]. destruct Hf as [F1 F2]. apply Hkeep; simpl; try done.
      + destruct l; simpl; rewrite <- ?F1, <- ?F2; apply (set_same LStrong) || apply (set_same LWeak).
      + apply bt_got; [by apply bt_made| |].
        * pose proof (hok_pos l w Hk). lia.
        * eapply (Hms l). by eapply elem_of_list_lookup_2.
    - destruct (hok_last l w Hk) as (m&Hm&Em). rewrite Hm. simpl.
      assert (Hp : (v_pos l (t_cur tv) <=? length (hist l w) - 1)%nat = true).
      { destruct Hb as [[Hb1 Hb2] _]. destruct l; simpl in *; lia. }
      pose proof (hok_pos l w Hk) as Hpos.
      assert (Hbm : bnd w (m_view m)) by (eapply (Hms l); by eapply elem_of_list_lookup_2).
      rewrite Hp, Em, set_same, Hgo. simpl. destruct (counter l c' =? counter l (w_arc w)) eqn:Ec.
      + apply N.eqb_eq in Ec. eexists _, _. split; [done|]. apply Hkeep; simpl; try done.
        * rewrite <- Ec. apply set_same.
        * by destruct l.
        * by destruct l.
        * apply bt_got; [by apply bt_made|lia|done].
      + assert (El : (S (length (hist l w) - 1) =? length (hist l w))%nat = true) by lia. simpl in El. rewrite El.
        eexists _, _. split; [done|].
        assert (Hbg : bt w (got l o (length (hist l w) - 1) m (made w tv))) by (apply bt_got; [by apply bt_made|lia|done]).
        destruct (write_now l o _ (m_view m) w (record KAtomic tv (set_arc c' w)) c' Hk Hms Hbg Hbm Hf eq_refl eq_refl eq_refl eq_refl)
          as (G1&G2&G3&G4&G5&G6).
        by split.
    - rewrite Hgo. simpl. eexists _, _. split; [done|].
      destruct (write_now l o _ v_none w (record KAtomic tv (set_arc c' w)) c' Hk Hms (bt_made _ _ Hk Hb) (bnd_none _ Hk) Hf eq_refl eq_refl eq_refl eq_refl)
        as (G1&G2&G3&G4&G5&G6).
      by split.
    - rewrite Hgo. simpl. eexists _, _. split; [done|]. destruct Hf. apply Hkeep; try done. by apply bt_made.
  Qed.

  (** *** The steps *)
  Lemma fx_s i h k s flag c : fx (action_s s) c (step_shared i h k s flag c).
  Proof.
    destruct s as [|old| | |v]; simpl; unfold checked.
    - by destruct (mem_ok c).
    - by destruct (max_refcount <? old).
    - destruct (val_ok c); [by destruct flag|done].
    - by destruct (mem_ok c).
    - destruct (v =? usize_max); simpl; destruct (mem_ok c); try done. by destruct (negb flag && (a_weak c =? v)).
  Qed.
  Lemma fx_x i x flag c c' : step_excl i x flag c = Some c' -> fx (action_x x) c c'.
  Proof.
    intros H. destruct x; simpl in H; try done; injection H as <-; simpl; unfold checked; repeat case_match; done.
  Qed.

  Lemma held_ok_nil x : held_ok (AHandle x []).
  Proof. by intros _. Qed.
  Lemma held_ok_held sh : held_ok (AHandle XHeld sh).
  Proof. by intros []. Qed.
  Lemma held_ok_step l c c' : Forall held_ok (a_hs c) -> astep l c = Some c' -> Forall held_ok (a_hs c').
  Proof.
    intros Hk Hst.
    assert (Hc : forall b c1 c2, Forall held_ok (a_hs c1) -> Forall held_ok (a_hs c2) -> Forall held_ok (a_hs (checked b c1 c2))) by (by intros []).
    assert (Hin : forall hs j h, Forall held_ok hs -> held_ok h -> Forall held_ok (<[j := h]> hs)) by (intros; by apply Forall_insert).
    destruct l as [i c0|i c0|i k flag|i flag|i y|i|]; simpl in Hst.
    7: { destruct (_ <? _); by simplify_eq. }
    all: destruct (a_hs c !! i) as [h|] eqn:Hi; [|done].
    all: pose proof (Forall_lookup_1 _ _ _ _ Hk Hi) as Hh.
    - destruct h as [[] sh]; try done. injection Hst as <-. apply Hin; [done|apply held_ok_held].
    - destruct h as [[] []]; try done. injection Hst as <-. destruct c0; (apply Hin; [done|apply held_ok_nil]).
    - destruct (h_sh h !! k) as [s|] eqn:Hs; [|done]. injection Hst as <-.
      assert (Hx : h_ex h = XHeld).
      { assert (h_ex h = XHeld \/ h_ex h <> XHeld) as [|Hn] by (destruct (h_ex h); (by left) || (by right)); [done|].
        by rewrite (Hh Hn) in Hs. }
      assert (Hok : forall sh, held_ok (AHandle (h_ex h) sh)) by (intros sh; rewrite Hx; apply held_ok_held).
      destruct s as [|old| | |v]; simpl.
      + apply Hc; [done|]. by apply Hin.
      + case_match; [by apply Hin|]. apply Forall_app. split; [by apply Hin|]. constructor; [apply held_ok_nil|constructor].
      + apply Hc; [done|]. destruct flag; [|done]. by apply Hin.
      + apply Hc; [done|]. by apply Hin.
      + apply Hc; [done|]. case_match; [by apply Hin|]. case_match; [by apply Hin|done].
    - destruct (h_ex h); simpl in Hst; try done; injection Hst as <-; (try (apply Hc; [done|])); repeat case_match;
        (apply Hin; [done|apply held_ok_nil]).
    - destruct h as [[] []]; try done. injection Hst as <-. apply Hc; [done|]. apply Hin; [done|apply held_ok_nil].
    - destruct h as [[] sh]; try done. injection Hst as <-. by apply Hc.
  Qed.

  Lemma excl_hs i x flag c c' : step_excl i x flag c = Some c' -> exists x', a_hs c' = <[i := AHandle x' []]> (a_hs c) \/ a_hs c' = a_hs c.
  Proof.
    intros H. destruct x; simpl in H; try done; injection H as <-; unfold checked; repeat case_match;
      first [by exists XHeld; right | eexists; by left].
  Qed.

  (** Handle [i] is replaced, new handles are added. *)
  Lemma NW_upd w w' i h' hv' ps pv :
    NW w -> hok w' -> msgs w' -> longer w w' ->
    (i < length (a_hs (w_arc w)))%nat ->
    a_hs (w_arc w') = <[i := h']> (a_hs (w_arc w)) ++ ps -> w_hv w' = <[i := hv']> (w_hv w) ++ pv ->
    Forall held_ok (a_hs (w_arc w')) -> length (hv_calls hv') = length (h_sh h') -> bh w' hv' ->
    length ps = length pv -> Forall (fun h => h_sh h = []) ps -> Forall (fun hv => hv_calls hv = []) pv -> Forall (bh w') pv ->
    NW w'.
  Proof.
    intros ((Hl&Hlc&_&_)&Hh&Hms&Hb) Hk Hms' Hlg Hil E1 E2 Hh' Hc Hb' Hp Hps Hpv Hpb.
    split; [|split; [done|split; [done|]]].
    - split; [|split; [|exact Hk]].
      + rewrite E1, E2, !app_length, !insert_length. lia.
      + intros j h hv [Hj Hjv]. rewrite E1 in Hj. rewrite E2 in Hjv.
        apply lookup_upd_app in Hj as [[-> ->]|[[Hne Hj]|(k&->&Hk1)]]; [| | |done].
        * apply lookup_upd_app in Hjv as [[_ ->]|[[? _]|(k&E&_)]]; [done|done|lia|lia].
        * apply lookup_upd_app in Hjv as [[? _]|[[_ Hjv]|(k&E&_)]]; [done|by eapply Hlc|apply lookup_lt_Some in Hj; lia|lia].
        * apply lookup_upd_app in Hjv as [[? _]|[[_ Hjv]|(k'&E&Hk2)]]; [lia|apply lookup_lt_Some in Hjv; lia| |lia].
          rewrite (Forall_lookup_1 _ _ _ _ Hps Hk1), (Forall_lookup_1 _ _ _ _ Hpv Hk2). done.
    - rewrite E2. apply Forall_app. split; [|done]. apply Forall_insert; [|done].
      eapply Forall_impl; [exact Hb|]. intros. by eapply bh_le.
  Qed.
  Lemma NW_upd0 w w' i h' hv' :
    NW w -> hok w' -> msgs w' -> longer w w' ->
    (i < length (a_hs (w_arc w)))%nat ->
    a_hs (w_arc w') = <[i := h']> (a_hs (w_arc w)) -> w_hv w' = <[i := hv']> (w_hv w) ->
    Forall held_ok (a_hs (w_arc w')) -> length (hv_calls hv') = length (h_sh h') -> bh w' hv' -> NW w'.
  Proof. intros. eapply (NW_upd w w' i h' hv' [] []); rewrite ?app_nil_r; done. Qed.
  Lemma NW_hok w : NW w -> hok w.
  Proof. intros ((_&_&H)&_). exact H. Qed.
  Lemma same_h (w : wconf) i h : a_hs (w_arc w) !! i = Some h -> a_hs (w_arc w) = <[i := h]> (a_hs (w_arc w)).
  Proof. intros H. by rewrite list_insert_id. Qed.

  Lemma shared_hs i h k s flag c :
    let hs' := a_hs (step_shared i h k s flag c) in
    let d := AHandle (h_ex h) (delete k (h_sh h)) in
    hs' = a_hs c \/ (exists s', hs' = <[i := AHandle (h_ex h) (<[k := s']> (h_sh h))]> (a_hs c)) \/
    hs' = <[i := d]> (a_hs c) \/ hs' = <[i := d]> (a_hs c) ++ [held].
  Proof.
    destruct s as [|old| | |v]; simpl; unfold checked.
    - destruct (mem_ok c); [|by left]. right. left. by eexists.
    - right. right. destruct (max_refcount <? old); [by left|by right].
    - destruct (val_ok c); [|by left]. destruct flag; [|by left]. right. right. by left.
    - destruct (mem_ok c); [|by left]. right. left. by eexists.
    - destruct (mem_ok c); [|by left]. destruct (v =? usize_max); [right; left; by eexists|].
      destruct (_ && _); [|by left]. right. right. by left.
  Qed.

  Lemma del_length {A} k (l : list A) : (k < length l)%nat -> length (delete k l) = Nat.pred (length l).
  Proof. intros H. destruct (lookup_lt_is_Some_2 _ _ H) as [y Hy]. rewrite (length_delete l k); [lia|by eexists]. Qed.
  Lemma bh_call w hv k tv' : bh w hv -> bt w tv' -> bh w (HV (hv_own hv) (<[k := tv']> (hv_calls hv))).
  Proof. intros [H1 H2] H. split; simpl; [done|]. by apply Forall_insert. Qed.
  Lemma bh_end w hv k tv' : bh w hv -> bt w tv' ->
    bh w (HV (TV (vjoin (t_cur (hv_own hv)) (t_cur tv')) (t_read (hv_own hv))) (delete k (hv_calls hv))).
  Proof.
    intros [[H1 H1'] H2] [H3 _]. split; simpl; [split; [by apply bnd_join|done]|]. by apply Forall_delete.
  Qed.
  Lemma hok_set_hv w hvs : hok (set_hv hvs w) <-> hok w.
  Proof. done. Qed.

  Lemma now_shared i k s h hv tv' w w1 flag c' :
    NW w -> at_ w i h hv -> h_sh h !! k = Some s -> astep (LSh i k flag) (w_arc w) = Some c' ->
    (exists tv, now_ok tv w c' tv' w1) -> NW (after_shared i k h hv tv' w w1) /\ w_arc (after_shared i k h hv tv' w w1) = c'.
  Proof.
    intros HN [Hi Hiv] Hk Ha (tv&Ea&Eh&Hok&Hbt&Hms&Hlg). split; [|done].
    assert (Hh' : Forall held_ok (a_hs c')) by (destruct HN as (_&Hh&_); by eapply held_ok_step).
    simpl in Ha. rewrite Hi, Hk in Ha. injection Ha as Ha.
    assert (Hlc : length (hv_calls hv) = length (h_sh h)) by (destruct HN as ((_&Hlc&_)&_); by eapply Hlc).
    assert (Hbh : bh w1 hv).
    { destruct HN as (_&_&_&Hb). eapply bh_le; [done|]. by eapply Forall_lookup_1. }
    apply lookup_lt_Some in Hi as Hil. apply lookup_lt_Some in Hk as Hkl.
    pose proof (shared_hs i h k s flag (w_arc w)) as Hs. simpl in Hs. rewrite Ha, <- Ea in Hs.
    unfold after_shared. rewrite Eh.
    destruct Hs as [E|[[s' E]|[E|E]]]; rewrite E.
    - rewrite Hi, Nat.ltb_irrefl, Nat.ltb_irrefl.
      eapply (NW_upd0 w _ i h); try done; simpl.
      + rewrite E. by apply same_h.
      + by rewrite Ea.
      + by rewrite insert_length.
      + by apply bh_call.
    - rewrite list_lookup_insert by done. simpl. rewrite !insert_length, !Nat.ltb_irrefl.
      eapply (NW_upd0 w _ i); try done; simpl.
      + by rewrite Ea.
      + by rewrite !insert_length.
      + by apply bh_call.
    - rewrite list_lookup_insert by done. simpl. rewrite insert_length, Nat.ltb_irrefl, del_length by done.
      replace (Nat.pred (length (h_sh h)) <? length (h_sh h))%nat with true by (symmetry; apply Nat.ltb_lt; lia).
      eapply (NW_upd0 w _ i); try done; simpl.
      + by rewrite Ea.
      + rewrite !del_length; lia.
      + by apply bh_end.
    - rewrite lookup_app_l by (by rewrite insert_length). rewrite list_lookup_insert by done. simpl.
      rewrite app_length, insert_length, del_length by done.
      replace (Nat.pred (length (h_sh h)) <? length (h_sh h))%nat with true by (symmetry; apply Nat.ltb_lt; lia).
      replace (length (a_hs (w_arc w)) <? length (a_hs (w_arc w)) + length [held])%nat with true by (symmetry; apply Nat.ltb_lt; simpl; lia).
      eapply (NW_upd w _ i _ _ [held]); try done; simpl.
      + by rewrite Ea.
      + rewrite !del_length; lia.
      + by apply bh_end.
      + by repeat constructor.
      + by repeat constructor.
      + constructor; [|constructor]. split; simpl; [|constructor]. destruct Hbt as [Hbt _]. split; simpl; [done|]. by apply bnd_none.
  Qed.

  Lemma now_own i x' hv tv' w w1 c' :
    NW w -> (i < length (a_hs (w_arc w)))%nat -> w_hv w !! i = Some hv -> Forall held_ok (a_hs c') ->
    (hv_calls hv = [] /\ a_hs c' = <[i := AHandle x' []]> (a_hs (w_arc w)) \/ a_hs c' = a_hs (w_arc w)) ->
    (exists tv, now_ok tv w c' tv' w1) -> NW (set_hv (<[i := HV tv' (hv_calls hv)]> (w_hv w1)) w1).
  Proof.
    intros HN Hil Hiv Hh' Hc (tv&Ea&Eh&Hok&Hbt&Hms&Hlg). rewrite Eh.
    assert (Hbh : bh w1 hv).
    { destruct HN as (_&_&_&Hb). eapply bh_le; [done|]. by eapply Forall_lookup_1. }
    assert (Hb' : bh w1 (HV tv' (hv_calls hv))) by (destruct Hbh; by split).
    destruct Hc as [[Hc E]|E].
    - eapply (NW_upd0 w _ i (AHandle x' [])); try done; simpl; [by rewrite Ea|by rewrite Ea|by rewrite Hc].
    - destruct (lookup_lt_is_Some_2 _ _ Hil) as [h Hi].
      eapply (NW_upd0 w _ i h); try done; simpl; [rewrite Ea, E; by apply same_h|by rewrite Ea|].
      destruct HN as ((_&Hlc&_)&_). by eapply Hlc.
  Qed.

  Lemma count_now w i l sh :
    NW w -> a_hs (w_arc w) !! i = Some (AHandle XHeld sh) ->
    let c := w_arc w in
    exists t w', wstep (WCount i l t) w = Some w' /\ NW w' /\
      w_arc w' = checked (mem_ok c) c (say (match l with LStrong => AStrong (a_strong c)
                    | LWeak => AWeakCount (if a_weak c =? usize_max then 0 else a_weak c) end) c).
  Proof.
    intros HN Hi c. set (c' := checked _ _ _).
    apply lookup_lt_Some in Hi as Hil.
    assert (exists hv, w_hv w !! i = Some hv) as [hv Hiv].
    { destruct HN as ((Hl&_)&_). apply lookup_lt_is_Some_2. lia. }
    assert (Hbt : bt w (hv_own hv)).
    { destruct HN as (_&_&_&Hb). by apply (Forall_lookup_1 _ _ _ _ Hb Hiv). }
    assert (Ehs : a_hs c' = a_hs c) by (unfold c', checked; by destruct (mem_ok c)).
    destruct (perform_now (ALoad l SeqCst) (hv_own hv) w (fun c => Some (checked (mem_ok c) c
              (say (match l with LStrong => AStrong (a_strong c)
                    | LWeak => AWeakCount (if a_weak c =? usize_max then 0 else a_weak c) end) c))) c') as (tv'&w1&Hp&Hok).
    - by apply NW_hok.
    - by destruct HN as (_&_&?&_).
    - done.
    - done.
    - simpl. unfold c', checked. by destruct (mem_ok c).
    - eexists (now (ALoad l SeqCst) w), _. split; [|split].
      + unfold wstep. rewrite Hi, Hiv. cbn [mbind option_bind]. rewrite Hp. done.
      + eapply (now_own i XHeld hv tv' w w1 c'); [done..| | |by eexists].
        * rewrite Ehs. by destruct HN as (_&?&_).
        * by right.
      + by destruct Hok as [? _].
  Qed.

  Lemma sc_step l w c' :
    NW w -> astep l (w_arc w) = Some c' ->
    exists ls w', wrun ls w = Some w' /\ w_arc w' = c' /\ NW w' /\ (length ls <= 2)%nat.
  Proof.
    intros HN Ha.
    assert (Hh' : Forall held_ok (a_hs c')) by (destruct HN as (_&Hh&_); by eapply held_ok_step).
    assert (Hone : forall l1 w', wstep l1 w = Some w' -> w_arc w' = c' -> NW w' ->
      exists ls w', wrun ls w = Some w' /\ w_arc w' = c' /\ NW w' /\ (length ls <= 2)%nat).
    { intros l1 w' H1 H2 H3. exists [l1], w'. simpl. rewrite H1. split; [done|]. split; [done|]. split; [done|lia]. }
    assert (Hhv : forall i h, a_hs (w_arc w) !! i = Some h -> exists hv, w_hv w !! i = Some hv /\ bh w hv /\
       length (hv_calls hv) = length (h_sh h)).
    { intros i h Hi. destruct HN as ((Hl&Hlc&_)&_&_&Hb). apply lookup_lt_Some in Hi as Hil. rewrite <- Hl in Hil.
      destruct (lookup_lt_is_Some_2 _ _ Hil) as [hv Hv]. exists hv. split; [done|]. split; [by eapply Forall_lookup_1|by eapply Hlc]. }
    pose proof (NW_hok _ HN) as Hk. pose proof HN as (_&Hheld&Hms&Hb).
    destruct l as [i c0|i c0|i k flag|i flag|i y|i|].
    - assert (exists sh, a_hs (w_arc w) !! i = Some (AHandle XHeld sh)) as [sh Hi].
      { simpl in Ha. destruct (a_hs (w_arc w) !! i) as [[[] sh]|] eqn:Hi; try done. by exists sh. }
      destruct (Hhv _ _ Hi) as (hv&Hiv&Hbh&Hlc).
      eapply (Hone (WStep (LBeginS i c0) 0)); [unfold wstep; rewrite Ha; cbn [mbind option_bind]; by rewrite Hiv|done|].
      simpl in Ha. rewrite Hi in Ha. injection Ha as <-.
      eapply (NW_upd0 w _ i); try done; simpl.
      + by eapply lookup_lt_Some.
      + rewrite !app_length. simpl in *. lia.
      + destruct Hbh as [[H1 H1'] H2]. split; [by split|]. simpl. apply Forall_app. split; [done|]. constructor; [|constructor].
        split; simpl; [done|]. by apply bnd_none.
    - assert (a_hs (w_arc w) !! i = Some held) as Hi.
      { simpl in Ha. destruct (a_hs (w_arc w) !! i) as [[[] []]|] eqn:Hi; done. }
      destruct (Hhv _ _ Hi) as (hv&Hiv&Hbh&Hlc).
      eapply (Hone (WStep (LBeginX i c0) 0)); [unfold wstep; rewrite Ha; done|done|].
      simpl in Ha. rewrite Hi in Ha. injection Ha as <-.
      assert (Ehs : a_hs (match c0 with CForget => say AForget (goto i (begin_excl c0) (w_arc w)) | _ => goto i (begin_excl c0) (w_arc w) end)
        = <[i := AHandle (begin_excl c0) []]> (a_hs (w_arc w))) by (by destruct c0).
      eapply (NW_upd0 w _ i (AHandle (begin_excl c0) []) hv); try done; simpl.
      + by destruct c0.
      + by eapply lookup_lt_Some.
      + by rewrite list_insert_id.
    - assert (exists h s, a_hs (w_arc w) !! i = Some h /\ h_sh h !! k = Some s) as (h&s&Hi&Hs).
      { simpl in Ha. destruct (a_hs (w_arc w) !! i) as [h|] eqn:Hi; [|done]. destruct (h_sh h !! k) as [s|] eqn:Hs; [|done]. eauto. }
      destruct (Hhv _ _ Hi) as (hv&Hiv&Hbh&Hlc).
      assert (exists tv, hv_calls hv !! k = Some tv) as [tv Htv].
      { apply lookup_lt_is_Some_2. rewrite Hlc. by eapply lookup_lt_Some. }
      destruct (perform_now (action_s s) tv w (astep (LSh i k flag)) c') as (tv'&w1&Hp&Hok); [done|done| |done| |].
      + destruct Hbh as [_ Hc]. by eapply Forall_lookup_1.
      + simpl in Ha. rewrite Hi, Hs in Ha. injection Ha as <-. apply fx_s.
      + destruct (now_shared i k s h hv tv' w w1 flag c' HN (conj Hi Hiv) Hs Ha) as [HN' E]; [by eexists|].
        eapply (Hone (WStep (LSh i k flag) (now (action_s s) w))); [|exact E|exact HN'].
        unfold wstep. rewrite Hi. cbn [mbind option_bind]. rewrite Hs. cbn [mbind option_bind]. rewrite Hiv. cbn [mbind option_bind].
        rewrite Htv. cbn [mbind option_bind]. rewrite Hp. done.
    - assert (exists h, a_hs (w_arc w) !! i = Some h) as (h&Hi).
      { simpl in Ha. destruct (a_hs (w_arc w) !! i) as [h|] eqn:Hi; [eauto|done]. }
      destruct (Hhv _ _ Hi) as (hv&Hiv&Hbh&Hlc). pose proof Ha as Ha'. simpl in Ha'. rewrite Hi in Ha'.
      destruct (perform_now (action_x (h_ex h)) (fenced (fence_x (h_ex h)) (hv_own hv)) w (astep (LEx i flag)) c') as (tv'&w1&Hp&Hok); [done|done| |done| |].
      + apply bt_fenced. by destruct Hbh.
      + by eapply fx_x.
      + eapply (Hone (WStep (LEx i flag) (now (action_x (h_ex h)) w))).
        * unfold wstep. rewrite Hi. cbn [mbind option_bind]. rewrite Hiv. cbn [mbind option_bind]. rewrite Hp. done.
        * by destruct Hok as [? _].
        * destruct (excl_hs _ _ _ _ _ Ha') as [x' Hx].
          eapply (now_own i x' hv tv' w w1 c'); [done|by eapply lookup_lt_Some|done|done| |by eexists].
          destruct Hx as [Hx|Hx]; [left|by right]. split; [|done].
          apply nil_length_inv. rewrite Hlc. 
          assert (h_ex h <> XHeld) as Hn by (intros E; by rewrite E in Ha').
          by rewrite (Forall_lookup_1 _ _ _ _ Hheld Hi Hn).
    - assert (a_hs (w_arc w) !! i = Some (AHandle XMut [])) as Hi.
      { simpl in Ha. destruct (a_hs (w_arc w) !! i) as [[[] []]|] eqn:Hi; done. }
      destruct (Hhv _ _ Hi) as (hv&Hiv&Hbh&Hlc). pose proof Ha as Ha'. simpl in Ha'. rewrite Hi in Ha'. injection Ha' as Ha'.
      destruct (perform_now (action_x XMut) (hv_own hv) w (astep (LEndMut i y)) c') as (tv'&w1&Hp&Hok); [done|done| |done| |].
      + by destruct Hbh.
      + rewrite <- Ha'. simpl. unfold checked. by destruct (val_ok _).
      + eapply (Hone (WStep (LEndMut i y) 0)).
        * unfold wstep. rewrite Hiv. cbn [mbind option_bind]. change (now (action_x XMut) w) with 0%nat in Hp. rewrite Hp. done.
        * by destruct Hok as [? _].
        * eapply (now_own i XHeld hv tv' w w1 c'); [done|by eapply lookup_lt_Some|done|done| |by eexists].
          rewrite <- Ha'. unfold checked. destruct (val_ok _); [left|by right]. split; [|done].
          apply nil_length_inv. by rewrite Hlc.
    - assert (exists sh, a_hs (w_arc w) !! i = Some (AHandle XHeld sh)) as [sh Hi].
      { simpl in Ha. destruct (a_hs (w_arc w) !! i) as [[[] sh]|] eqn:Hi; try done. by exists sh. }
      simpl in Ha. rewrite Hi in Ha. injection Ha as <-.
      destruct (count_now w i LStrong sh HN Hi) as (t&w1&Hst&HN1&E1). unfold checked in *.
      destruct (mem_ok (w_arc w)) eqn:Hm; [|by eapply (Hone (WCount i LStrong t) w1)].
      destruct (count_now w1 i LWeak sh HN1) as (t2&w2&Hst2&HN2&E2); [by rewrite E1|]. unfold checked in E2.
      rewrite E1 in E2. change (mem_ok (say (AStrong (a_strong (w_arc w))) (w_arc w))) with (mem_ok (w_arc w)) in E2. rewrite Hm in E2.
      exists [WCount i LStrong t; WCount i LWeak t2], w2. split; [|split; [done|split; [done|simpl; lia]]].
      cbn [wrun]. rewrite Hst, Hst2. done.
    - eapply (Hone (WStep LWeakDrop 0)); [unfold wstep; rewrite Ha; done|done|].
      simpl in Ha. destruct (_ <? _); [|done]. injection Ha as <-.
      destruct HN as ((H1&H2&H3)&_). split; [|done]. split; [done|]. split; [|done]. exact H2.
  Qed.

  Lemma NW_init (x : T) : NW (w_init x).
  Proof.
    split; [|split; [|split]].
    - apply WI_init.
    - constructor; [apply held_ok_nil|constructor].
    - intros l m Hm. destruct l; apply elem_of_list_singleton in Hm as ->; split; simpl; lia.
    - constructor; [|constructor]. split; simpl; [|constructor]. split; split; simpl; lia.
  Qed.
  Lemma sc_run ls w c' :
    NW w -> arun ls (w_arc w) = Some c' ->
    exists ls' w', wrun ls' w = Some w' /\ w_arc w' = c' /\ (length ls' <= 2 * length ls)%nat.
  Proof.
    revert w. induction ls as [|l ls IH]; simpl; intros w HN H.
    - injection H as <-. exists [], w. simpl. by split.
    - destruct (astep l (w_arc w)) as [c1|] eqn:E; [|done].
      destruct (sc_step _ _ _ HN E) as (l1&w1&R1&<-&HN1&Hl1). destruct (IH _ HN1 H) as (l2&w2&R2&E2&Hl2).
      exists (l1 ++ l2), w2. split; [apply wrun_app; by exists w1|]. split; [done|]. rewrite app_length. lia.
  Qed.
End ord_sc.
