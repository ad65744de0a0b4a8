(** Every step keeps the invariant of [UrcProofs]. *)
From Verif Require Export UrcProofs.
From Coq Require Import ZifyBool ZifyNat ZifyN.

Section urc_step.
  Context {PR : Profile} {T : Type}.
  Notation conf := (uconf T).
  Implicit Types (c : conf) (h : uhandle) (f : nat) (p : upc) (x : fence).
  Notation one b := (if b : bool then 1 else 0).

  Lemma inv_mem n c : UInv n c -> mem_ok c = true.
  Proof. intros HI. unfold mem_ok. by rewrite (i_mf _ _ HI). Qed.
  Lemma inv_val n c : UInv n c -> val_ok c = true.
  Proof. intros HI. unfold val_ok. by rewrite (i_mf _ _ HI), (i_data _ _ HI). Qed.
  Lemma with_fence_ok f x c (k : fence -> conf) :
    u_fences c !! f = Some x -> f_freed x = false -> with_fence f c k = k x.
  Proof. intros H1 H2. unfold with_fence. by rewrite H1, H2. Qed.
  Lemma open_ok n c f x :
    UInv n c -> u_fences c !! f = Some x -> f_freed x = false ->
    f_strong x = count f sc c /\ f_weak x = count f wc c /\ happened (is_ff f) c = 0 /\ 1 <= f_strong x + f_weak x.
  Proof. intros HI Hx Hf. pose proof (i_f _ _ HI _ _ Hx) as H. unfold fence_ok in H. by rewrite Hf in H. Qed.
  Lemma freed_ok n c f x :
    UInv n c -> u_fences c !! f = Some x -> f_freed x = true ->
    count f sc c = 0 /\ count f wc c = 0 /\ happened (is_ff f) c = 1.
  Proof. intros HI Hx Hf. pose proof (i_f _ _ HI _ _ Hx) as H. unfold fence_ok in H. by rewrite Hf in H. Qed.
  Lemma pend_goto c i f p p' :
    u_hs c !! i = Some (UH f p) ->
    cnt (fun h => pend (u_pc h)) (<[i := UH f p']> (u_hs c)) + one (pend p) =
    cnt (fun h => pend (u_pc h)) (u_hs c) + one (pend p').
  Proof. intros Hi. apply (cnt_insert (fun h => pend (u_pc h)) _ _ _ (UH f p') Hi). Qed.

  Ltac hapt := intros; unfold free_fence; rewrite ?hap_say; simpl; rewrite ?N.add_0_r; reflexivity.
  (** Close the goals of [inv_neutral] left after giving the handle. *)
  Ltac neutral HI Hi q :=
    eapply (inv_neutral _ _ _ _ _ _ q HI Hi);
    [reflexivity|reflexivity|reflexivity|reflexivity|reflexivity|reflexivity|hapt|hapt|hapt|hapt
    |reflexivity|reflexivity|reflexivity|try (simpl; tauto)|try done|try done|try done|clear; lia].

  Lemma wsub_1 a : 1 <= a -> a <= usize_max -> wsub a 1 = a - 1.
  Proof.
    intros H1 H2. unfold wsub. change usize_max with 18446744073709551615 in H2.
    change (2 ^ 64) with 18446744073709551616.
    replace (a + 18446744073709551616 - 1) with (a - 1 + 1 * 18446744073709551616) by lia.
    rewrite N.mod_add by done. apply N.mod_small. lia.
  Qed.
  Lemma wadd_1 a : a < usize_max -> wadd a 1 = a + 1.
  Proof.
    intros H2. unfold wadd. change usize_max with 18446744073709551615 in H2.
    change (2 ^ 64) with 18446744073709551616. apply N.mod_small. lia.
  Qed.

  (** Counting down the fence of handle [i]; [x'] is the fence afterwards. *)
  Lemma inv_dec n c c' i f p x x' :
    UInv n c -> u_hs c !! i = Some (UH f p) -> u_hs c' = <[i := UH f UGone]> (u_hs c) ->
    u_fences c !! f = Some x -> f_freed x = false -> u_fences c' = <[f := x']> (u_fences c) -> f_freed x' = false ->
    f_strong x' + one (sc p) = f_strong x -> f_weak x' + one (wc p) = f_weak x -> 1 <= f_strong x' + f_weak x' ->
    sc p || wc p = true -> pend p = false -> busy p = true ->
    u_data c' = u_data c -> u_mfreed c' = u_mfreed c -> u_sf c' = u_sf c -> u_log c' = u_log c ->
    UInv (n + 1) c'.
  Proof.
    intros HI Hi Hhs Hx Fx Hf Fx' Es Ew Hpos Hc Hp Hb Hd Hm Hsf Hlog.
    assert (Hh : forall q, happened q c' = happened q c) by (intros q; by apply hap_log).
    assert (Hlt : (f < length (u_fences c))%nat) by (by eapply lookup_lt_Some).
    destruct (open_ok _ _ _ _ HI Hx Fx) as (O1&O2&O3&_).
    pose proof (count_goto f sc c c' i (UH f p) UGone Hi Hhs) as Cs.
    pose proof (count_goto f wc c c' i (UH f p) UGone Hi Hhs) as Cw.
    simpl in Cs, Cw. rewrite Nat.eqb_refl in Cs, Cw. simpl in Cs, Cw.
    eapply (inv_step n (n + 1) c c' i (UH f p) UGone HI Hi Hhs eq_refl); simpl.
    - rewrite Hd. apply HI.
    - rewrite Hm. apply HI.
    - rewrite Hh. apply HI.
    - by rewrite Hf, insert_length.
    - intros g Hg. rewrite Hf. by apply list_lookup_insert_ne.
    - intros g Hg. apply Hh.
    - intros y Hy. rewrite Hf, list_lookup_insert in Hy by done. injection Hy as <-.
      unfold fence_ok. rewrite Fx', Hh. clear -Es Ew Hpos O1 O2 O3 Cs Cw. destruct (sc p), (wc p); lia.
    - rewrite Hsf, (i_sf _ _ HI), Hf, Hhs. unfold A. rewrite !Hh.
      pose proof (pend_goto _ _ _ _ UGone Hi) as Hpp. rewrite Hp in Hpp. simpl in Hpp.
      pose proof (cnt_insert open _ _ _ x' Hx) as Ho. unfold open at 2 4 in Ho. rewrite Fx, Fx' in Ho. simpl in Ho.
      clear -Hpp Ho. lia.
    - done.
    - done.
    - done.
    - done.
    - done.
    - done.
    - intros _. rewrite Hc. auto.
    - rewrite Hsf. pose proof (i_max _ _ HI) as H. clear -H. lia.
    - clear; lia.
  Qed.

  (** The only handle of a fence frees it. *)
  Lemma inv_free n c c' i f p p' x x' :
    UInv n c -> u_hs c !! i = Some (UH f p) -> u_hs c' = <[i := UH f p']> (u_hs c) ->
    u_fences c !! f = Some x -> f_freed x = false -> u_fences c' = <[f := x']> (u_fences c) -> f_freed x' = true ->
    f_strong x = 1 -> f_weak x = 0 -> sc p = true -> wc p = false -> pend p = false ->
    sc p' = false -> wc p' = false -> busy p' = false \/ busy p = true -> busy p = true \/ idle f c = true \/ sole_in p = true ->
    p' = UDSub \/ p' = UGone ->
    u_data c' = u_data c -> u_mfreed c' = u_mfreed c -> u_sf c' = u_sf c ->
    happened is_bad c' = happened is_bad c ->
    (forall g, happened (is_ff g) c' = happened (is_ff g) c + one (f =? g)%nat) ->
    A c' + one (pend p') = A c + 1 ->
    UInv (n + 1) c'.
  Proof.
    intros HI Hi Hhs Hx Fx Hf Fx' Es Ew Hsc Hwc Hp Hsc' Hwc' Hb Hb2 Hp' Hd Hm Hsf Hbad Hff HA.
    assert (Hlt : (f < length (u_fences c))%nat) by (by eapply lookup_lt_Some).
    destruct (open_ok _ _ _ _ HI Hx Fx) as (O1&O2&O3&_).
    pose proof (count_goto f sc c c' i (UH f p) p' Hi Hhs) as Cs.
    pose proof (count_goto f wc c c' i (UH f p) p' Hi Hhs) as Cw.
    simpl in Cs, Cw. rewrite Nat.eqb_refl in Cs, Cw. simpl in Cs, Cw. rewrite Hsc, Hsc' in Cs. rewrite Hwc, Hwc' in Cw.
    assert (Hz : zpath p' = false /\ sole_in p' = false /\ sole_sf p' = false /\ dead p' = false)
      by (destruct Hp' as [-> | ->]; done).
    destruct Hz as (Z1&Z2&Z3&Z4).
    (* nobody else is on this fence *)
    assert (Hno : forall j h', j <> i -> u_hs c !! j = Some h' -> u_fence h' = f -> sc (u_pc h') = false).
    { intros j h' Hji Hj Hfe. destruct (sc (u_pc h')) eqn:E; [|done]. exfalso.
      pose proof (count_two f sc c i j (UH f p) h' (not_eq_sym Hji) Hi Hj eq_refl Hfe Hsc E) as H2.
      clear -H2 O1 Es. lia. }
    assert (Hcnt : forall g q, g <> f -> count g q c' = count g q c).
    { intros g q Hne. pose proof (count_goto g q c c' i (UH f p) p' Hi Hhs) as H. simpl in H.
      apply not_eq_sym, Nat.eqb_neq in Hne. rewrite Hne in H. simpl in H. clear -H. lia. }
    assert (Hlook : forall j h', u_hs c' !! j = Some h' ->
              (j = i /\ h' = UH f p') \/ (j <> i /\ u_hs c !! j = Some h')).
    { intros j h' Hj. rewrite Hhs in Hj. destruct (decide (j = i)) as [->|Hne].
      - rewrite list_lookup_insert in Hj by (by eapply lookup_lt_Some). injection Hj as <-. by left.
      - rewrite list_lookup_insert_ne in Hj by done. by right. }
    constructor.
    - rewrite Hd. apply HI.
    - rewrite Hm. apply HI.
    - rewrite Hbad. apply HI.
    - intros g y Hy. rewrite Hf in Hy. destruct (decide (g = f)) as [->|Hg].
      + rewrite list_lookup_insert in Hy by done. injection Hy as <-.
        unfold fence_ok. rewrite Fx', Hff, Nat.eqb_refl. clear -Cs Cw O1 O2 O3 Es Ew. lia.
      + rewrite list_lookup_insert_ne in Hy by done. pose proof (i_f _ _ HI _ _ Hy) as Hok. unfold fence_ok in *.
        rewrite !(Hcnt _ _ Hg), Hff. apply not_eq_sym, Nat.eqb_neq in Hg. rewrite Hg, N.add_0_r. done.
    - intros g Hge. rewrite Hf, insert_length in Hge. rewrite Hff.
      assert (Hg : (f =? g)%nat = false) by (apply Nat.eqb_neq; clear -Hge Hlt; lia).
      rewrite Hg, N.add_0_r. by apply (i_new _ _ HI).
    - intros j h' Hj. rewrite Hf, insert_length.
      destruct (Hlook _ _ Hj) as [[-> ->]|[_ Hj']]; [done|by apply (i_h _ _ HI _ _ Hj')].
    - rewrite Hsf, (i_sf _ _ HI), Hf, Hhs.
      pose proof (pend_goto _ _ _ _ p' Hi) as Hpp. rewrite Hp in Hpp. simpl in Hpp.
      pose proof (cnt_insert open _ _ _ x' Hx) as Ho. unfold open at 2 4 in Ho. rewrite Fx, Fx' in Ho. simpl in Ho.
      clear -Hpp Ho HA. destruct (pend p'); lia.
    - intros g. destruct (decide (g = f)) as [->|Hg]; [|rewrite (Hcnt _ _ Hg); apply (i_busy _ _ HI)].
      pose proof (count_goto f busy c c' i (UH f p) p' Hi Hhs) as H. simpl in H. rewrite Nat.eqb_refl in H.
      simpl in H. pose proof (i_busy _ _ HI f) as HB. destruct Hb as [Hb|Hb]; rewrite Hb in H; clear -H HB.
      + destruct (busy p); lia.
      + destruct (busy p'); lia.
    - intros j h' Hj E. destruct (Hlook _ _ Hj) as [[-> ->]|[Hne Hj']]; [simpl in E; congruence|].
      destruct (decide (u_fence h' = f)) as [Hfe|Hfe]; [|rewrite !(Hcnt _ _ Hfe); by apply (i_in _ _ HI _ _ Hj')].
      pose proof (Hno _ _ Hne Hj' Hfe) as H0. by destruct (u_pc h').
    - intros j h' Hj E. destruct (Hlook _ _ Hj) as [[-> ->]|[Hne Hj']]; [simpl in E; congruence|].
      rewrite Hsf. by apply (i_sole _ _ HI _ _ Hj').
    - intros j h' Hj E. destruct (Hlook _ _ Hj) as [[-> ->]|[Hne Hj']]; [simpl in E; congruence|].
      pose proof (i_dead _ _ HI _ _ Hj' E) as H0.
      destruct (decide (u_fence h' = f)) as [Hfe|Hfe]; [|by rewrite !(Hcnt _ _ Hfe)].
      rewrite Hfe in *. clear -H0 O1 Es. lia.
    - rewrite Hhs, insert_length. pose proof (i_len _ _ HI) as H. clear -H. lia.
    - rewrite Hsf. pose proof (i_max _ _ HI) as H. clear -H. lia.
  Qed.

  (** A step that changes the counter of strong fences. *)
  Lemma inv_sf n c c' i f p p' :
    UInv n c -> u_hs c !! i = Some (UH f p) -> u_hs c' = <[i := UH f p']> (u_hs c) ->
    u_fences c' = u_fences c -> sc p' = sc p -> wc p' = wc p ->
    zpath p' = false -> sole_in p' = false -> sole_sf p' = false -> dead p' = false ->
    sc p || wc p || pend p = true -> busy p = true ->
    u_data c' = u_data c -> u_mfreed c' = u_mfreed c ->
    happened is_bad c' = happened is_bad c ->
    (forall g, happened (is_ff g) c' = happened (is_ff g) c) ->
    u_sf c' + A c + one (pend p) = u_sf c + A c' + one (pend p') ->
    u_sf c' <= n + 1 ->
    UInv (n + 1) c'.
  Proof.
    intros HI Hi Hhs Hf Hs Hw Z1 Z2 Z3 Z4 Hc Hb Hd Hm Hbad Hff Hsf Hmax.
    assert (Es : forall f, count f sc c' = count f sc c) by (intros g; by eapply (count_goto_same g sc c c' i (UH f p))).
    assert (Ew : forall f, count f wc c' = count f wc c) by (intros g; by eapply (count_goto_same g wc c c' i (UH f p))).
    eapply (inv_step n (n + 1) c c' i (UH f p) p' HI Hi Hhs Z1); simpl.
    - rewrite Hd. apply HI.
    - rewrite Hm. apply HI.
    - rewrite Hbad. apply HI.
    - by rewrite Hf.
    - intros g _. by rewrite Hf.
    - intros g _. apply Hff.
    - intros x' Hx'. rewrite Hf in Hx'. pose proof (i_f _ _ HI _ _ Hx') as Hok. unfold fence_ok in *.
      by rewrite Es, Ew, Hff.
    - rewrite Hf, Hhs. pose proof (pend_goto _ _ _ _ p' Hi) as Hpp. pose proof (i_sf _ _ HI) as H.
      clear -Hpp H Hsf. destruct (pend p), (pend p'); lia.
    - auto.
    - congruence.
    - congruence.
    - congruence.
    - congruence.
    - congruence.
    - auto.
    - done.
    - clear; lia.
  Qed.

  Lemma inv_call1 n c i f (k : ucall1) :
    UInv n c -> n + 8 <= usize_max -> u_hs c !! i = Some (UH f UHeld) -> idle f c = true ->
    UInv (n + 1) (call1 i (UH f UHeld) k c).
  Proof.
    intros HI Hn Hi Hid. destruct (counted_open _ _ _ _ HI Hi eq_refl) as (x&Hx&Fx). simpl in Hx.
    assert (Hlt : (f < length (u_fences c))%nat) by (by eapply lookup_lt_Some).
    destruct (open_ok _ _ _ _ HI Hx Fx) as (O1&O2&O3&O4).
    assert (B1 : count f sc c <= n).
    { unfold count. pose proof (cnt_le (onf f sc) (u_hs c)) as H. pose proof (i_len _ _ HI) as H'. clear -H H'. lia. }
    assert (B2 : count f wc c <= n).
    { unfold count. pose proof (cnt_le (onf f wc) (u_hs c)) as H. pose proof (i_len _ _ HI) as H'. clear -H H'. lia. }
    pose proof (cnt_insert open _ _ _ (Fence (f_strong x + 1) (f_weak x) (f_freed x)) Hx) as Ho1.
    pose proof (cnt_insert open _ _ _ (Fence (f_strong x) (f_weak x + 1) (f_freed x)) Hx) as Ho2.
    change (open (Fence (f_strong x + 1) (f_weak x) (f_freed x))) with (open x) in Ho1.
    change (open (Fence (f_strong x) (f_weak x + 1) (f_freed x))) with (open x) in Ho2.
    assert (Hself : <[i := UH f UHeld]> (u_hs c) = u_hs c) by (by apply list_insert_id).
    destruct k; simpl; rewrite ?(with_fence_ok _ _ _ _ Hx Fx), ?(inv_mem _ _ HI), ?(inv_val _ _ HI); unfold checked.
    - unfold inc_strong. rewrite (proj2 (N.leb_le _ _)) by (clear -B1 O1 Hn; lia).
      eapply (inv_add n (n + 1) c _ i (UH f UHeld) UHeld HI Hi); simpl; try done.
      + clear -Ho1. destruct (open x); lia.
      + by rewrite insert_length.
      + intros g Hg. by apply list_lookup_insert_ne.
      + intros y Hy. rewrite list_lookup_insert in Hy by done. injection Hy as <-.
        unfold fence_ok. simpl. rewrite Fx. unfold count, happened in *. simpl.
        rewrite !cnt_snoc, !onf_self. simpl. clear -O1 O2 O3 O4. lia.
    - unfold inc_weak. rewrite (proj2 (N.leb_le _ _)) by (clear -B2 O2 Hn; lia).
      eapply (inv_add n (n + 1) c _ i (UH f UHeld) WHeld HI Hi); simpl; try done.
      + clear -Ho2. destruct (open x); lia.
      + by rewrite insert_length.
      + intros g Hg. by apply list_lookup_insert_ne.
      + intros y Hy. rewrite list_lookup_insert in Hy by done. injection Hy as <-.
        unfold fence_ok. simpl. rewrite Fx. unfold count, happened in *. simpl.
        rewrite !cnt_snoc, !onf_self. simpl. clear -O1 O2 O3 O4. lia.
    - eapply (inv_neutral _ _ _ _ _ _ UHeld HI Hi); [simpl; by rewrite Hself|..]; try done; try hapt; clear; lia.
    - eapply (inv_neutral _ _ _ _ _ _ UHeld HI Hi); [simpl; by rewrite Hself|..]; try done; try hapt; clear; lia.
    - neutral HI Hi UForgot.
    - destruct ((f_strong x =? 1) && (f_weak x =? 0)) eqn:E.
      + neutral HI Hi UFence. intros _. simpl. apply andb_true_iff in E. rewrite <- O1, <- O2. clear -E. lia.
      + eapply (inv_neutral _ _ _ _ _ _ UHeld HI Hi); [simpl; by rewrite Hself|..]; try done; try hapt; clear; lia.
  Qed.

  Lemma inv_lstep n c c' i h flag :
    UInv n c -> n + 8 <= usize_max -> u_hs c !! i = Some h -> step i h flag c = Some c' ->
    happened is_zeroing c' = 0 -> UInv (n + 1) c'.
  Proof.
    intros HI Hn Hi Hst Hz. destruct h as [f p]. destruct (i_h _ _ HI _ _ Hi) as [Hlt Hzp]. simpl in Hlt, Hzp.
    pose proof (i_max _ _ HI) as Hmax. pose proof (i_sf _ _ HI) as Hsf.
    pose proof (inv_mem _ _ HI) as Hme. pose proof (inv_val _ _ HI) as Hva.
    assert (Hop : sc p || wc p = true -> exists x, u_fences c !! f = Some x /\ f_freed x = false).
    { intros H. by apply (counted_open _ _ _ _ HI Hi H). }
    assert (Hs1 : sc p = true -> 1 <= count f sc c) by (intros H; by apply (count_in f sc c i _ Hi)).
    assert (Hw1 : wc p = true -> 1 <= count f wc c) by (intros H; by apply (count_in f wc c i _ Hi)).
    unfold step in Hst. simpl in Hst.
    destruct p; try done; simpl in Hzp; try done; rewrite ?Hme, ?Hva in Hst; simpl in Hst;
      try (destruct (Hop eq_refl) as (x&Hx&Fx); destruct (open_ok _ _ _ _ HI Hx Fx) as (O1&O2&O3&O4);
           try rewrite (with_fence_ok _ _ _ _ Hx Fx) in Hst).
    - (* UDrop *)
      specialize (Hs1 eq_refl). injection Hst as <-.
      destruct ((f_strong x =? 1) && (f_weak x =? 0)) eqn:E.
      + apply andb_true_iff in E. destruct E as [E1 E2]. apply N.eqb_eq in E1, E2.
        eapply (inv_free n c _ i f UDrop UDSub x _ HI Hi); try reflexivity; try done; auto.
        * hapt.
        * intros g. unfold free_fence. rewrite hap_say. reflexivity.
        * unfold A, free_fence. rewrite !hap_say. simpl. rewrite !N.add_0_r. reflexivity.
      + unfold dec_strong. rewrite (proj2 (N.ltb_lt _ _)) by (clear -O1 Hs1; lia).
        eapply (inv_dec n c _ i f UDrop x _ HI Hi); try reflexivity; try done; simpl.
        * clear -O1 Hs1. lia.
        * clear. lia.
        * clear -E O1 Hs1. lia.
    - (* UDSub *)
      injection Hst as <-.
      assert (Hp : 1 <= u_sf c).
      { pose proof (cnt_lookup (fun h => pend (u_pc h)) _ _ _ Hi eq_refl) as H. clear -H Hsf. lia. }
      assert (Ew : wsub (u_sf c) 1 = u_sf c - 1) by (apply wsub_1; clear -Hp Hmax Hn; lia).
      destruct (u_sf c =? 1) eqn:E; unfold drop_in_place.
      + eapply (inv_sf n c _ i f UDSub UDLoadW HI Hi); try reflexivity; try done; unfold A; simpl; rewrite Ew;
          unfold happened; simpl; clear -Hp Hmax; lia.
      + eapply (inv_sf n c _ i f UDSub UGone HI Hi); try reflexivity; try done; unfold A; simpl; rewrite Ew;
          unfold happened; simpl; clear -Hp Hmax; lia.
    - (* UDLoadW *)
      injection Hst as <-. destruct (u_wf c =? 0); unfold drop_in_place; neutral HI Hi UGone.
    - (* UCas *)
      injection Hst as <-. simpl in *. destruct (u_sf c =? 1) eqn:E.
      + exfalso. destruct (f_strong x =? 1); unfold happened in Hz; simpl in Hz; rewrite ?cnt_snoc in Hz; simpl in Hz;
          clear -Hz; lia.
      + neutral HI Hi UHeld.
    - (* ULock *)
      injection Hst as <-. simpl in *. destruct (u_wf c =? 0).
      + neutral HI Hi ULoadS.
      + neutral HI Hi UHeld.
    - (* ULoadS *)
      injection Hst as <-. simpl in *. destruct (u_sf c =? 1) eqn:E.
      + neutral HI Hi UStore0. intros _. by apply N.eqb_eq.
      + neutral HI Hi UHeld.
    - (* UStore0 *)
      injection Hst as <-. simpl in *.
      destruct ((f_strong x =? 1) && (f_weak x =? 0)) eqn:E.
      + neutral HI Hi UMut.
        * intros _. simpl. apply andb_true_iff in E. rewrite <- O1, <- O2. clear -E. lia.
        * intros _. by apply (i_sole _ _ HI _ _ Hi).
      + neutral HI Hi UHeld.
    - (* UM0 *)
      injection Hst as <-. simpl in *. destruct (u_sf c =? 1) eqn:E; [|neutral HI Hi UMClone].
      destruct (f_weak x =? 0).
      + exfalso. unfold happened in Hz; simpl in Hz; rewrite ?cnt_snoc in Hz; simpl in Hz; clear -Hz; lia.
      + neutral HI Hi UM1.
    - (* UM1 *)
      injection Hst as <-. simpl in *.
      destruct ((u_wf c =? 1) && negb (f_strong x =? 1)); [neutral HI Hi UMClone|].
      exfalso. unfold happened in Hz; simpl in Hz; rewrite ?cnt_snoc in Hz; simpl in Hz; clear -Hz; lia.
    - (* UMClone *)
      destruct (idle f c) eqn:Eid; [|done]. injection Hst as <-. destruct flag; [neutral HI Hi UHeld|neutral HI Hi UMNewC].
    - (* UMNewC *)
      injection Hst as <-. destruct flag; [neutral HI Hi UHeld|neutral HI Hi UDrop].
    - (* UEnvAdd *)
      injection Hst as <-. simpl.
      assert (Ew : wadd (u_sf c) 1 = u_sf c + 1) by (apply wadd_1; clear -Hmax Hn; lia).
      eapply (inv_sf n c _ i f UEnvAdd UEnvAlloc HI Hi); try reflexivity; try done; unfold A; simpl; rewrite Ew;
          unfold happened; simpl; clear -Hmax; lia.
    - (* UEnvAlloc *)
      injection Hst as <-. destruct flag.
      + eapply (inv_sf n c _ i f UEnvAlloc UHeld HI Hi); try reflexivity; try done.
        * hapt.
        * hapt.
        * unfold A. rewrite !hap_say. unfold happened. simpl. clear. lia.
        * simpl. clear -Hmax. lia.
      + assert (Hp : 1 <= u_sf c).
        { pose proof (cnt_lookup (fun h => pend (u_pc h)) _ _ _ Hi eq_refl) as H. clear -H Hsf. lia. }
        set (c1 := goto i (UH f UEnvAlloc) UHeld (set_sf (u_sf c - 1) c)).
        assert (HI1 : UInv (n + 1) c1).
        { eapply (inv_sf n c _ i f UEnvAlloc UHeld HI Hi); try reflexivity; try done; unfold A; simpl;
            unfold happened; simpl; clear -Hp Hmax; lia. }
        assert (HL : llen (u_hs c1) <= n).
        { unfold c1. simpl. rewrite insert_length. apply HI. }
        assert (HI2 : UInv n c1).
        { destruct HI1; constructor; try done. unfold c1. simpl. clear -Hmax. lia. }
        eapply (inv_newfence n (n + 1) c1 _ HI2); try reflexivity.
        * unfold c1. simpl. clear -Hp. lia.
        * intros j h' Hj. unfold c1 in Hj. simpl in Hj. destruct (decide (j = i)) as [->|Hji].
          -- rewrite list_lookup_insert in Hj by (by eapply lookup_lt_Some). injection Hj as <-. done.
          -- rewrite list_lookup_insert_ne in Hj by done.
             apply (blocked n c i (UH f UEnvAlloc) j h' HI Hi); try done. by left.
    - (* WDrop *)
      specialize (Hw1 eq_refl). injection Hst as <-. destruct ((f_weak x =? 1) && (f_strong x =? 0)) eqn:E.
      + neutral HI Hi WSub. intros _. simpl. apply andb_true_iff in E. rewrite <- O1. clear -E. lia.
      + unfold dec_weak. rewrite (proj2 (N.ltb_lt _ _)) by (clear -O2 Hw1; lia).
        eapply (inv_dec n c _ i f WDrop x _ HI Hi); try reflexivity; try done; simpl.
        * clear. lia.
        * clear -O2 Hw1. lia.
        * clear -E O2 Hw1. lia.
    - (* WSub *)
      pose proof (i_dead _ _ HI _ _ Hi eq_refl) as Hdead.
      injection Hst as <-. destruct (u_wf c =? 1); [neutral HI Hi WLoadS|neutral HI Hi WLeaked].
    - (* WLoadS *)
      pose proof (i_dead _ _ HI _ _ Hi eq_refl) as Hdead.
      injection Hst as <-. destruct (u_sf c =? 0); unfold drop_in_place; neutral HI Hi WLeaked.
  Qed.

  Lemma inv_ustep n c c' l :
    UInv n c -> n + 8 <= usize_max -> ustep l c = Some c' -> happened is_zeroing c' = 0 -> UInv (n + 1) c'.
  Proof.
    intros HI Hn Hst Hz. pose proof (inv_val _ _ HI) as Hva. destruct l as [i c0|i c0|i flag|i y|i|i|i]; simpl in Hst;
      destruct (u_hs c !! i) as [[f p]|] eqn:Hi; try done.
    - destruct p; try done. destruct (idle f c) eqn:Eid; [|done]. injection Hst as <-. by apply inv_call1.
    - destruct p; try done. destruct (idle f c) eqn:Eid; [|done]. injection Hst as <-.
      destruct c0; simpl; [neutral HI Hi UDrop|neutral HI Hi UCas|neutral HI Hi ULock|neutral HI Hi UM0|neutral HI Hi UEnvAdd].
    - by eapply inv_lstep.
    - destruct p; try done. rewrite Hva in Hst. simpl in Hst. injection Hst as <-. neutral HI Hi UHeld.
    - destruct p; try done. destruct (counted_open _ _ _ _ HI Hi eq_refl) as (x&Hx&Fx). simpl in Hx.
      destruct (open_ok _ _ _ _ HI Hx Fx) as (O1&O2&O3&O4).
      destruct (i_in _ _ HI _ _ Hi eq_refl) as [H1 H2]. simpl in H1, H2.
      rewrite (with_fence_ok _ _ _ _ Hx Fx) in Hst. injection Hst as <-.
      eapply (inv_free n c _ i f UFence UGone x _ HI Hi); try reflexivity; try done; auto.
      + by rewrite O1.
      + by rewrite O2.
      + hapt.
      + intros g. unfold free_fence. rewrite !hap_say. simpl. rewrite N.add_0_r. reflexivity.
      + unfold A, free_fence. rewrite !hap_say. unfold happened. simpl. clear. lia.
    - destruct p; try done. destruct (idle f c) eqn:Eid; [|done]. injection Hst as <-. neutral HI Hi WDrop.
    - destruct p; try done. injection Hst as <-. neutral HI Hi WForgot.
  Qed.
End urc_step.
