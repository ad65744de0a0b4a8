(** Proofs of the statements on [Urc], second part. *)
From Verif Require Export UrcFacts.
From Coq Require Import ZifyBool ZifyNat ZifyN.

Section aux2.
  Context {PR : Profile} {T : Type}.
  Notation conf := (uconf T).
  Implicit Types (c : conf) (h : uhandle) (f : nat) (p : upc) (x : fence).
  Notation one b := (if b : bool then 1 else 0).

  Lemma cnt_ext {B} (q r : B -> bool) l : (forall i y, l !! i = Some y -> q y = r y) -> cnt q l = cnt r l.
  Proof.
    induction l as [|y l IH]; intros H; [done|]. simpl. rewrite (H 0%nat y eq_refl), IH; [done|].
    intros i z Hz. by apply (H (S i)).
  Qed.
  Lemma cnt_or {B} (q r s : B -> bool) l :
    (forall i y, l !! i = Some y -> one (q y) = one (r y) + one (s y)) -> cnt q l = cnt r l + cnt s l.
  Proof.
    induction l as [|y l IH]; intros H; [done|]. simpl. pose proof (H 0%nat y eq_refl) as H0. rewrite IH.
    - clear -H0. destruct (q y), (r y), (s y); lia.
    - intros i z Hz. by apply (H (S i)).
  Qed.
  Lemma cnt_only {B} (q : B -> bool) l i y :
    l !! i = Some y -> (forall j z, j <> i -> l !! j = Some z -> q z = false) -> cnt q l = one (q y).
  Proof.
    revert i. induction l as [|z l IH]; intros i Hi Hj; [done|]. destruct i as [|i]; simpl in *.
    - injection Hi as ->. rewrite (cnt_ext q (fun _ => false) l).
      + assert (H0 : cnt (fun _ : B => false) l = 0) by (clear; induction l; simpl; lia). rewrite H0. lia.
      + intros j z Hz. by apply (Hj (S j) z).
    - rewrite (Hj 0%nat z) by done. apply (IH i); [done|]. intros j w Hne Hw. apply (Hj (S j)); [lia|done].
  Qed.
  Lemma cnt_none {B} (q : B -> bool) l : (forall j z, l !! j = Some z -> q z = false) -> cnt q l = 0.
  Proof.
    induction l as [|z l IH]; intros H; [done|]. simpl. rewrite (H 0%nat z eq_refl), IH; [done|].
    intros j w Hw. by apply (H (S j)).
  Qed.
  Lemma cnt_index {B} (q : B -> bool) k l :
    cnt (fun i => match (k ++ l) !! i with Some y => q y | None => false end) (seq (length k) (length l)) = cnt q l.
  Proof.
    revert k. induction l as [|y l IH]; intros k; [done|]. simpl. rewrite lookup_app_r by lia.
    rewrite Nat.sub_diag. simpl. f_equal.
    specialize (IH (k ++ [y])). rewrite <- app_assoc, app_length in IH. simpl in IH.
    by replace (length k + 1)%nat with (S (length k)) in IH by lia.
  Qed.

  Lemma sc_split n c f : UInv n c -> count f sc c = count f is_urc c + count f is_urc_lost c.
  Proof.
    intros HI. unfold count. apply cnt_or. intros i [g p] Hi. destruct (i_h _ _ HI _ _ Hi) as [_ Hz]. unfold onf.
    simpl in *. destruct (g =? f)%nat; [|done]. by destruct p.
  Qed.
  Lemma wc_split c f : count f wc c = count f is_weak c + count f is_weak_lost c + count f dead c.
  Proof.
    unfold count. rewrite (cnt_or (onf f wc) (onf f is_weak) (onf f (fun p => is_weak_lost p || dead p))).
    - rewrite (cnt_or (onf f (fun p => is_weak_lost p || dead p)) (onf f is_weak_lost) (onf f dead)); [lia|].
      intros i [g p] Hi. unfold onf. simpl. destruct (g =? f)%nat; [|done]. by destruct p.
    - intros i [g p] Hi. unfold onf. simpl. destruct (g =? f)%nat; [|done]. by destruct p.
  Qed.
  Lemma no_dead n c f : UInv n c -> 1 <= count f sc c -> count f dead c = 0.
  Proof.
    intros HI Hs. destruct (N.eq_0_gt_0_cases (count f dead c)) as [|Hp]; [done|]. exfalso.
    destruct (cnt_pos _ _ Hp) as (j&h&Hj&Ho). unfold onf in Ho. apply andb_true_iff in Ho. destruct Ho as [Ho Hd].
    apply Nat.eqb_eq in Ho. pose proof (i_dead _ _ HI _ _ Hj Hd) as H0. rewrite Ho in H0. lia.
  Qed.

  (** An open fence has a counted handle. *)
  Lemma open_counted n c f x :
    UInv n c -> u_fences c !! f = Some x -> f_freed x = false ->
    exists j h, u_hs c !! j = Some h /\ u_fence h = f /\ sc (u_pc h) || wc (u_pc h) = true.
  Proof.
    intros HI Hx Fx. destruct (open_ok _ _ _ _ HI Hx Fx) as (O1&O2&_&O4).
    assert (Hp : 0 < count f sc c \/ 0 < count f wc c) by (clear -O1 O2 O4; lia).
    destruct Hp as [Hp|Hp]; destruct (cnt_pos _ _ Hp) as (j&h&Hj&Ho); unfold onf in Ho; apply andb_true_iff in Ho;
      destruct Ho as [Ho Hq]; apply Nat.eqb_eq in Ho; exists j, h; rewrite Hq, ?orb_true_r; done.
  Qed.
  Lemma only_state n c i h :
    UInv n c -> only_handle i c -> u_hs c !! i = Some h -> sc (u_pc h) = true -> pend (u_pc h) = false -> A c = 0 ->
    u_sf c = 1 /\ count (u_fence h) sc c = 1 /\ count (u_fence h) wc c = 0 /\ count (u_fence h) busy c <= 1.
  Proof.
    intros HI Ho Hi Hs Hp HA.
    assert (Hoth : forall j h', j <> i -> u_hs c !! j = Some h' ->
              sc (u_pc h') = false /\ wc (u_pc h') = false /\ pend (u_pc h') = false).
    { intros j h' Hne Hj. destruct (Ho _ _ Hne Hj) as [-> | ->]; done. }
    assert (Hwc : wc (u_pc h) = false) by (by destruct (u_pc h)).
    destruct (counted_open _ _ _ _ HI Hi) as (x&Hx&Fx); [by rewrite Hs|].
    split.
    - rewrite (i_sf _ _ HI), HA. rewrite (cnt_only open _ _ _ Hx).
      + unfold open. rewrite Fx. simpl. rewrite (cnt_only (fun h => pend (u_pc h)) _ _ _ Hi), Hp; [done|].
        intros j h' Hne Hj. by apply (Hoth j).
      + intros g y Hne Hy. unfold open. destruct (f_freed y) eqn:E; [done|]. exfalso.
        destruct (open_counted _ _ _ _ HI Hy E) as (j&h'&Hj&Hf&Hq).
        destruct (decide (j = i)) as [->|Hji]; [congruence|].
        destruct (Hoth _ _ Hji Hj) as (H1&H2&_). by rewrite H1, H2 in Hq.
    - split.
      + unfold count. rewrite (cnt_only _ _ _ _ Hi).
        * unfold onf. by rewrite Nat.eqb_refl, Hs.
        * intros j h' Hne Hj. unfold onf. destruct (Hoth _ _ Hne Hj) as (->&_). apply andb_false_r.
      + split; [|apply (i_busy _ _ HI)]. unfold count. apply cnt_none. intros j h' Hj. unfold onf.
        destruct (decide (j = i)) as [->|Hji].
        * assert (h' = h) as -> by congruence. by rewrite Hwc, andb_false_r.
        * destruct (Hoth _ _ Hji Hj) as (_&->&_). apply andb_false_r.
  Qed.
  Lemma state_only n c i h :
    UInv n c -> u_hs c !! i = Some h -> sc (u_pc h) = true ->
    u_sf c = 1 -> count (u_fence h) sc c = 1 -> count (u_fence h) wc c = 0 -> only_handle i c.
  Proof.
    intros HI Hi Hs Hsf Cs Cw j h' Hne Hj.
    destruct (i_h _ _ HI _ _ Hj) as [_ Hz].
    assert (H1 : sc (u_pc h') = false).
    { destruct (sc (u_pc h')) eqn:E; [|done]. exfalso.
      pose proof (sole_fence _ _ _ _ _ _ HI Hsf Hi Hs Hj) as Hf. rewrite E in Hf. specialize (Hf eq_refl).
      pose proof (count_two (u_fence h) sc c i j h h' (not_eq_sym Hne) Hi Hj eq_refl Hf Hs E) as H2. clear -H2 Cs. lia. }
    assert (H2 : wc (u_pc h') = false).
    { destruct (wc (u_pc h')) eqn:E; [|done]. exfalso.
      pose proof (sole_fence _ _ _ _ _ _ HI Hsf Hi Hs Hj) as Hf. rewrite E, orb_true_r in Hf. specialize (Hf eq_refl).
      pose proof (count_in (u_fence h) wc c j h' Hj Hf E) as H2. clear -H2 Cw. lia. }
    assert (H3 : pend (u_pc h') = false).
    { destruct (pend (u_pc h')) eqn:E; [|done]. exfalso. by eapply (sole_pend _ _ _ _ _ _ HI Hsf Hi Hs Hj). }
    destruct (u_pc h'); try done; auto.
  Qed.
  Lemma is_urc_sc p : zpath p = false -> is_urc p = true -> sc p = true.
  Proof. by destruct p. Qed.
  Lemma A_zero c : happened is_env_fail c = 0 -> happened is_fence_dropped c = 0 -> A c = 0.
  Proof. unfold A. lia. Qed.

  (** Stepping the configuration after a move of handle [i]. *)
  Lemma goto_lookup c i h p : u_hs c !! i = Some h -> u_hs (goto i h p c) !! i = Some (UH (u_fence h) p).
  Proof. intros Hi. simpl. apply list_lookup_insert. by eapply lookup_lt_Some. Qed.
  Lemma begin_step c i f k : u_hs c !! i = Some (UH f UHeld) -> idle f c = true ->
    ustep (LBegin i k) c = Some (goto i (UH f UHeld) (begin_call k) c).
  Proof. intros Hi Hid. simpl. by rewrite Hi, Hid. Qed.
  Lemma goto_goto c i f p q : goto i (UH f p) q (goto i (UH f p) p c) = goto i (UH f p) q c.
  Proof. unfold goto, set_hs. simpl. by rewrite list_insert_insert. Qed.
End aux2.

(** *** C63 *)
Lemma p_C63_safe : forall (PR : Profile) (T : Type) (x : T) ls c,
  urc_reached x ls c -> forallb sharing ls = true ->
  happened is_bad c = 0 /\ (forall f, happened (is_ff f) c <= 1) /\ happened is_fm c = 0.
Proof.
  intros PR T x ls c Hr Hs. pose proof (sharing_zero _ _ _ Hr Hs) as Hz.
  destruct (reached_inv _ _ _ Hr Hz) as (n&HI&_). split; [apply HI|]. split.
  - intros f. destruct (u_fences c !! f) as [y|] eqn:Hy.
    + destruct (f_freed y) eqn:Fy; [destruct (freed_ok _ _ _ _ HI Hy Fy) as (_&_&->)|destruct (open_ok _ _ _ _ HI Hy Fy) as (_&_&->&_)]; lia.
    + rewrite (i_new _ _ HI); [lia|]. by apply lookup_ge_None_1.
  - destruct Hr as [_ Hr]. by destruct (NF_run _ _ _ (NF_init x) Hr) as (_&?&_).
Qed.

(** Two threads; the second clones and reads, the first drops its handle. *)
Lemma x_C63_safe_ex : forall (PR : Profile), exists c,
  urc_reached 5 (s_env 0 ++ [LCall 0 CDowngrade; LBegin 0 CDrop; LCall 1 CClone; LStep 0 false; LCall 3 CRead]
                 ++ s_drop 1 1 ++ s_drop 3 2) c /\
  forallb (@sharing N) (s_env 0 ++ [LCall 0 CDowngrade; LBegin 0 CDrop; LCall 1 CClone; LStep 0 false; LCall 3 CRead]
                 ++ s_drop 1 1 ++ s_drop 3 2) = true /\
  u_log c = [URead 5; UFreeFence 1] /\ u_hs c = [UH 0 UGone; UH 1 UGone; UH 0 WHeld; UH 1 UGone].
Proof. intros PR. eexists. split; [split; [done|vm_compute; reflexivity]|]. done. Qed.

(** A read gives the value written last. *)
Lemma p_C63_read : forall (PR : Profile) (T : Type) (x : T) ls c,
  urc_reached x ls c -> forallb sharing ls = true ->
  forall i f, u_hs c !! i = Some (UH f UHeld) -> idle f c = true ->
  exists c', ustep (LCall i CRead) c = Some c' /\ u_log c' = u_log c ++ [URead (last_written x ls)].
Proof.
  intros PR T x ls c Hr Hs i f Hi Hid. pose proof (sharing_zero _ _ _ Hr Hs) as Hz.
  destruct (reached_inv _ _ _ Hr Hz) as (n&HI&_). simpl. rewrite Hi, Hid. eexists. split; [done|].
  unfold call1. rewrite (inv_val _ _ HI). simpl. destruct Hr as [_ Hr].
  rewrite (val_run _ _ _ Hr); [done|]. rewrite (i_bad _ _ HI). done.
Qed.

Lemma x_C63_read_ex : forall (PR : Profile), exists c,
  urc_reached 5 ([LBegin 0 CGetMut] ++ s_steps 0 3 ++ [LEndMut 0 7] ++ s_env 0) c /\
  forallb (@sharing N) ([LBegin 0 CGetMut] ++ s_steps 0 3 ++ [LEndMut 0 7] ++ s_env 0) = true /\
  last_written 5 ([LBegin 0 CGetMut] ++ s_steps 0 3 ++ [LEndMut 0 7] ++ s_env 0) = 7 /\
  u_hs c !! 1%nat = Some (UH 1 UHeld) /\ idle 1 c = true.
Proof. intros PR. eexists. split; [split; [done|vm_compute; reflexivity]|]. done. Qed.

(** The same for all calls, as long as no [make_mut] moves the value out and the exchange in [try_unwrap]
    does not succeed. *)
Lemma p_C63_safe_more : forall (PR : Profile) (T : Type) (x : T) ls c,
  urc_reached x ls c -> happened is_zeroing c = 0 ->
  happened is_bad c = 0 /\ (forall f, happened (is_ff f) c <= 1) /\ u_val c = last_written x ls /\ u_data c = UAlive.
Proof.
  intros PR T x ls c Hr Hz. destruct (reached_inv _ _ _ Hr Hz) as (n&HI&_). split; [apply HI|]. split.
  - intros f. destruct (u_fences c !! f) as [y|] eqn:Hy.
    + destruct (f_freed y) eqn:Fy; [destruct (freed_ok _ _ _ _ HI Hy Fy) as (_&_&->)|destruct (open_ok _ _ _ _ HI Hy Fy) as (_&_&->&_)]; lia.
    + rewrite (i_new _ _ HI); [lia|]. by apply lookup_ge_None_1.
  - split; [|apply HI]. destruct Hr as [_ Hr]. rewrite (val_run _ _ _ Hr); [done|]. by rewrite (i_bad _ _ HI).
Qed.

Lemma x_C63_safe_more_ex : forall (PR : Profile), exists c,
  urc_reached 5 (s_env 0 ++ [LBegin 0 CMakeMut; LBegin 1 CUnwrap] ++ s_steps 0 3 ++ s_steps 1 1 ++ s_steps 0 2) c /\
  happened is_zeroing c = 0 /\ u_log c = [UCopied 5; UUnwrapErr; UFreeFence 0].
Proof. intros PR. eexists. split; [split; [done|vm_compute; reflexivity]|]. done. Qed.

(** *** C64 *)
(** Whatever is done, the shared block is never freed and the library never destroys the value. *)
Lemma p_C64_never_refuted : forall (PR : Profile) (T : Type) (x : T) ls c,
  urun ls (urc_init x) = Some c -> happened is_destroy c = 0 /\ happened is_fm c = 0 /\ u_mfreed c = false.
Proof.
  intros PR T x ls c Hr. by destruct (NF_run _ _ _ (NF_init x) Hr) as (?&?&?&_).
Qed.

Lemma x_C64_never_ex : forall (PR : Profile), exists c,
  urun (s_env 0 ++ s_drop 0 2 ++ s_drop 1 3) (urc_init 5) = Some c /\ all_gone c /\ u_data c = UAlive /\
  u_log c = [UFreeFence 0; UFreeFence 1].
Proof. intros PR. eexists. split; [vm_compute; reflexivity|]. split; [by repeat constructor|]. done. Qed.

Lemma p_C64_destroyed_refuted : forall (PR : Profile), exists c,
  urc_reached 5 (s_drop 0 3) c /\ all_gone c /\ u_data c = UAlive /\ u_mfreed c = false /\
  happened is_destroy c = 0 /\ happened is_fm c = 0.
Proof. intros PR. eexists. split; [split; [done|vm_compute; reflexivity]|]. split; [by repeat constructor|]. done. Qed.

(** What is released: the memory of every fence, once, when all its handles are gone. *)
Lemma p_C64_fences_partial : forall (PR : Profile) (T : Type) (x : T) ls c,
  urc_reached x ls c -> happened is_zeroing c = 0 ->
  forall f, (f < length (u_fences c))%nat ->
  (forall i h, u_hs c !! i = Some h -> u_fence h = f -> u_pc h = UGone) -> happened (is_ff f) c = 1.
Proof.
  intros PR T x ls c Hr Hz f Hf Hg. destruct (reached_inv _ _ _ Hr Hz) as (n&HI&_).
  destruct (lookup_lt_is_Some_2 _ _ Hf) as [y Hy]. destruct (f_freed y) eqn:Fy.
  - by destruct (freed_ok _ _ _ _ HI Hy Fy) as (_&_&?).
  - exfalso. destruct (open_counted _ _ _ _ HI Hy Fy) as (j&h&Hj&Hfe&Hq). by rewrite (Hg _ _ Hj Hfe) in Hq.
Qed.

Lemma x_C64_fences_ex : forall (PR : Profile), exists c,
  urc_reached 5 (s_env 0 ++ [LCall 0 CDowngrade; LWDrop 2; LStep 2 false] ++ s_drop 0 2) c /\ happened is_zeroing c = 0 /\
  length (u_fences c) = 2%nat /\ u_hs c = [UH 0 UGone; UH 1 UHeld; UH 0 UGone] /\ u_log c = [UFreeFence 0].
Proof. intros PR. eexists. split; [split; [done|vm_compute; reflexivity]|]. done. Qed.

(** *** C65 *)
Lemma p_C65_fence_counts_partial : forall (PR : Profile) (T : Type) (x : T) ls c,
  urc_reached x ls c -> happened is_zeroing c = 0 ->
  forall i f, u_hs c !! i = Some (UH f UHeld) -> idle f c = true ->
  exists c', ustep (LCall i CCounts) c = Some c' /\
    u_log c' = u_log c ++ [UCounts (count f is_urc c + count f is_urc_lost c)
                                   (count f is_weak c + count f is_weak_lost c) (u_sf c =? 1)].
Proof.
  intros PR T x ls c Hr Hz i f Hi Hid. destruct (reached_inv _ _ _ Hr Hz) as (n&HI&_).
  destruct (counted_open _ _ _ _ HI Hi eq_refl) as (y&Hy&Fy). simpl in Hy.
  destruct (open_ok _ _ _ _ HI Hy Fy) as (O1&O2&_). exists (say (UCounts (f_strong y) (f_weak y) (u_sf c =? 1)) c).
  split.
  - simpl. rewrite Hi, Hid. unfold call1. simpl. rewrite (with_fence_ok _ _ _ _ Hy Fy), (inv_mem _ _ HI). done.
  - simpl. rewrite O1, O2, (sc_split _ _ _ HI), wc_split, (no_dead _ _ _ HI), N.add_0_r; [done|].
    by apply (count_in f sc c i _ Hi).
Qed.

Lemma x_C65_fence_counts_ex : forall (PR : Profile), exists c c',
  urc_reached 5 ([LCall 0 CClone; LCall 0 CDowngrade; LCall 0 CDowngrade] ++ s_env 1) c /\ happened is_zeroing c = 0 /\
  u_hs c !! 0%nat = Some (UH 0 UHeld) /\ idle 0 c = true /\ ustep (LCall 0 CCounts) c = Some c' /\
  u_log c' = [UCounts 2 2 false].
Proof. intros PR. do 2 eexists. split; [split; [done|vm_compute; reflexivity]|]. do 3 (split; [done|]). split; [reflexivity|done]. Qed.

(** The counter of strong fences also counts fences that have no [Urc] any more but [Weak]s (or handles
    that were forgotten). *)
Lemma p_C65_strong_fences_partial : forall (PR : Profile) (T : Type) (x : T) ls c,
  urc_reached x ls c -> happened is_zeroing c = 0 -> quiet c ->
  happened is_env_fail c = 0 -> happened is_fence_dropped c = 0 ->
  u_sf c = fences_that (fence_live c) c + fences_that (fence_orphan c) c /\
  (forall f, fence_orphan c f = true -> exists i h, u_hs c !! i = Some h /\ u_fence h = f /\
     (is_urc_lost (u_pc h) = true \/ is_weak (u_pc h) = true \/ is_weak_lost (u_pc h) = true \/ u_pc h = WLeaked)).
Proof.
  intros PR T x ls c Hr Hz Hq HA1 HA2. destruct (reached_inv _ _ _ Hr Hz) as (n&HI&_). split.
  - rewrite (i_sf _ _ HI), A_zero by done.
    rewrite (cnt_none (fun h => pend (u_pc h)) (u_hs c)).
    + rewrite <- (cnt_index open [] (u_fences c)). simpl. unfold fences_that. rewrite !N.add_0_r.
      apply cnt_or. intros i y Hy. apply lookup_seq in Hy. destruct Hy as [-> Hl]. simpl.
      unfold fence_live, fence_orphan. destruct (u_fences c !! i) as [g|]; [|done]. unfold open.
      destruct (f_freed g); [done|]. simpl. by destruct (has_urc i c).
    + intros j h Hj. pose proof (Forall_lookup_1 _ _ _ _ Hq Hj) as [Hb _]. by destruct (u_pc h).
  - intros f Ho. unfold fence_orphan in Ho. destruct (u_fences c !! f) as [y|] eqn:Hy; [|done].
    apply andb_true_iff in Ho. destruct Ho as [Fy Hno]. apply negb_true_iff in Fy, Hno.
    destruct (open_counted _ _ _ _ HI Hy Fy) as (j&h&Hj&Hfe&Hc). exists j, h. split; [done|]. split; [done|].
    assert (Hnu : is_urc (u_pc h) = false).
    { destruct (is_urc (u_pc h)) eqn:E; [|done]. exfalso. pose proof (count_in f is_urc c j h Hj Hfe E) as H.
      unfold has_urc in Hno. lia. }
    pose proof (Forall_lookup_1 _ _ _ _ Hq Hj) as [Hb _].
    destruct (u_pc h); simpl in *; try done; auto.
Qed.

Lemma x_C65_strong_fences_ex : forall (PR : Profile), exists c,
  urc_reached 5 ([LCall 0 CDowngrade] ++ s_env 0 ++ s_env 0 ++ s_drop 2 2 ++ s_drop 0 1) c /\ happened is_zeroing c = 0 /\
  quiet c /\ happened is_env_fail c = 0 /\ happened is_fence_dropped c = 0 /\
  u_sf c = 2 /\ fences_that (fence_live c) c = 1 /\ fences_that (fence_orphan c) c = 1.
Proof.
  intros PR. eexists. split; [split; [done|vm_compute; reflexivity]|]. split; [done|].
  split; [by repeat constructor|]. done.
Qed.

(** With nothing but [Urc]s it is exact. *)
Lemma p_C65_urcs_partial : forall (PR : Profile) (T : Type) (x : T) ls c,
  urc_reached x ls c -> happened is_zeroing c = 0 -> 
  happened is_env_fail c = 0 -> happened is_fence_dropped c = 0 ->
  Forall (fun h => u_pc h = UHeld \/ u_pc h = UMut \/ u_pc h = UGone) (u_hs c) ->
  u_sf c = fences_that (fence_live c) c.
Proof.
  intros PR T x ls c Hr Hz HA1 HA2 Hall.
  assert (Hq : quiet c).
  { eapply Forall_impl; [exact Hall|]. intros h [-> |[-> | ->]]; done. }
  destruct (p_C65_strong_fences_partial _ _ _ _ _ Hr Hz Hq HA1 HA2) as [-> Ho].
  assert (H0 : fences_that (fence_orphan c) c = 0); [|rewrite H0; lia].
  apply cnt_none. intros j f _. destruct (fence_orphan c f) eqn:E; [|done]. exfalso.
  destruct (Ho _ E) as (i&h&Hi&_&Hh).
  destruct (Forall_lookup_1 _ _ _ _ Hall Hi) as [Hp|[Hp|Hp]]; rewrite Hp in Hh; simpl in Hh;
    destruct Hh as [?|[?|[?|?]]]; done.
Qed.

Lemma x_C65_urcs_ex : forall (PR : Profile), exists c,
  urc_reached 5 ([LCall 0 CClone] ++ s_env 0 ++ s_env 1 ++ s_drop 2 2) c /\ happened is_zeroing c = 0 /\
  happened is_env_fail c = 0 /\ happened is_fence_dropped c = 0 /\
  Forall (fun h => u_pc h = UHeld \/ u_pc h = UMut \/ u_pc h = UGone) (u_hs c) /\ u_sf c = 2.
Proof.
  intros PR. eexists. split; [split; [done|vm_compute; reflexivity]|]. do 3 (split; [done|]).
  split; [|done]. repeat (apply Forall_cons; split; [simpl; auto|]). done.
Qed.

(** A fence whose only [Urc] was dropped while it had a [Weak] stays counted, even after the [Weak] is dropped. *)
Lemma p_C65_strong_fences_refuted : forall (PR : Profile), exists c,
  urc_reached 5 ([LCall 0 CDowngrade] ++ s_env 0 ++ s_drop 0 1 ++ [LWDrop 1] ++ s_steps 1 2) c /\
  u_hs c = [UH 0 UGone; UH 0 WLeaked; UH 1 UHeld] /\ u_sf c = 2 /\ fences_that (fence_live c) c = 1.
Proof. intros PR. eexists. split; [split; [done|vm_compute; reflexivity]|]. done. Qed.
