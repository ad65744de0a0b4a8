(** C49 without a bound on the length of a history: the counters of an [RcBox] at their greatest value. *)
From Verif Require Import RcFacts.

Section wrap.
  Context {EN : Env} {T : Type} {EL : Elem T}.
  Local Existing Instance box_elem.
  Notation W := (world (rcbox T)).
  Implicit Types (d : list T) (w : W).

  Lemma read_same p i w r w' : read_at (T := rcbox T) p i w = (r, w') -> w' = w.
  Proof.
    unfold read_at, get_slots, bind, ret, undef. destruct (t_size =? 0); [by intros [= _ ->]|].
    destruct p as [|b]; [by intros [= _ ->]|]. destruct (heap w !! b) as [blk|]; [|by intros [= _ ->]].
    destruct (slot_of (b_slots blk) i) as [[x|]|]; by intros [= _ ->].
  Qed.
  Lemma inner_same p d w r s : rc_inner p (d, w) = (r, s) -> s = (d, w).
  Proof.
    unfold rc_inner, on_snd, sp_deref. simpl. destruct (read_at (sp_ptr p) 0 w) as [r' w'] eqn:E.
    apply read_same in E as ->. by intros [= _ <-].
  Qed.

  Lemma set_inner p rb rb' d w : fst (rc_inner p (d, w)) = Ret rb ->
    exists w', rc_set p rb' (d, w) = (Ret tt, (d, w')) /\ rc_inner p (d, w') = (Ret rb', (d, w')).
  Proof.
    intros Hr. destruct (sp_ptr p) as [|b] eqn:Hp.
    { revert Hr. unfold rc_inner, on_snd, sp_deref, read_at. rewrite Hp. cbn [snd].
      destruct (N.eqb_spec (@t_size (rcbox T) box_elem) 0) as [E|_]; [pose proof (@box_size_pos T EL); lia|done]. }
    assert (exists s, slots_at w (Blk b) s /\ 0 < llen s) as (s & Hs & Hl).
    { revert Hr. unfold rc_inner, on_snd, sp_deref, read_at. rewrite Hp. cbn [snd].
      destruct (N.eqb_spec (@t_size (rcbox T) box_elem) 0) as [E|_]; [pose proof (@box_size_pos T EL); lia|].
      unfold bind, get_slots, slots_at. destruct (heap w !! b) as [blk|]; [|done].
      unfold slot_of. destruct (N.ltb_spec 0 (llen (b_slots blk))) as [Hl|]; [|done]. eauto. }
    pose proof (slots_at_set _ _ _ (<[N.to_nat 0 := Some rb']> s) Hs) as Hs'.
    eexists. split.
    - unfold rc_set, sp_assign. apply on_snd_Ret. rewrite Hp. by apply (write_at_slots w (Blk b) s 0 rb' box_size_pos).
    - unfold rc_inner, sp_deref. apply on_snd_Ret. rewrite Hp.
      apply (read_at_slots _ (Blk b) _ 0 rb' box_size_pos Hs').
      apply list_lookup_insert. change (N.to_nat 0) with 0%nat. lia.
  Qed.

  Lemma rc_obs i tab d w n k : fst (rexec (RCounts i) (tab, (d, w))) = Ret (RNums n k) ->
    exists p rb, tab !! i = Some (Some (HRc p)) /\ rc_inner p (d, w) = (Ret rb, (d, w)) /\ r_strong rb = n /\ r_weak rb = k.
  Proof.
    unfold rexec, with_rc. cbn [fst]. destruct (tab !! i) as [[[p|o]|]|]; try done.
    unfold bind, on_snd, rc_strong_count, rc_weak_count, bind, ret. cbn [snd fst].
    destruct (rc_inner p (d, w)) as [r s'] eqn:E. pose proof E as E'. apply inner_same in E' as ->.
    destruct r as [rb| | |]; try done. cbn [snd fst]. rewrite E. cbn. intros [= <- <-]. eauto 10.
  Qed.
  Lemma rc_obs_of i tab p rb d w : tab !! i = Some (Some (HRc p)) -> rc_inner p (d, w) = (Ret rb, (d, w)) ->
    fst (rexec (RCounts i) (tab, (d, w))) = Ret (RNums (r_strong rb) (r_weak rb)).
  Proof.
    intros Hi E. unfold rexec, with_rc. cbn [fst]. rewrite Hi.
    unfold bind, on_snd, rc_strong_count, rc_weak_count, bind, ret. cbn [snd fst]. rewrite E. cbn [snd fst].
    rewrite E. done.
  Qed.
  Lemma wk_obs i tab d w n k : fst (rexec (RWCounts i) (tab, (d, w))) = Ret (RNums n k) ->
    tab !! i = Some (Some (HWeak None)) /\ n = 0 /\ k = 0 \/
    exists p rb, tab !! i = Some (Some (HWeak (Some p))) /\ rc_inner p (d, w) = (Ret rb, (d, w)) /\
      r_strong rb = n /\ r_weak rb = k.
  Proof.
    unfold rexec, with_weak. cbn [fst]. destruct (tab !! i) as [[[p|[p|]]|]|]; try done.
    - unfold bind, on_snd, weak_strong_count, weak_weak_count, rc_strong_count, rc_weak_count, bind, ret. cbn [snd fst].
      destruct (rc_inner p (d, w)) as [r s'] eqn:E. pose proof E as E'. apply inner_same in E' as ->.
      destruct r as [rb| | |]; try done. cbn [snd fst]. rewrite E. cbn. intros [= <- <-]. right. eauto 10.
    - cbn. intros [= <- <-]. by left.
  Qed.
  Lemma wk_obs_of i tab p rb d w : tab !! i = Some (Some (HWeak (Some p))) -> rc_inner p (d, w) = (Ret rb, (d, w)) ->
    fst (rexec (RWCounts i) (tab, (d, w))) = Ret (RNums (r_strong rb) (r_weak rb)).
  Proof.
    intros Hi E. unfold rexec, with_weak. cbn [fst]. rewrite Hi.
    unfold bind, on_snd, weak_strong_count, weak_weak_count, rc_strong_count, rc_weak_count, bind, ret. cbn [snd fst].
    rewrite E. cbn [snd fst]. rewrite E. done.
  Qed.

  Lemma uadd_max_checked {S} (s : S) : e_checks = true -> uadd usize_max 1 s = (Panic PArith, s).
  Proof. intros Hc. unfold uadd. rewrite (proj2 (N.leb_gt _ _)), Hc by lia. done. Qed.
  Lemma uadd_max_wraps {S} (s : S) : e_checks = false -> uadd usize_max 1 s = (Ret 0, s).
  Proof. intros Hc. unfold uadd. rewrite (proj2 (N.leb_gt _ _)), Hc by lia. done. Qed.

  Lemma inc_strong_checked p rb d w : e_checks = true -> rc_inner p (d, w) = (Ret rb, (d, w)) ->
    r_strong rb = usize_max -> inc_strong p (d, w) = (Panic PArith, (d, w)).
  Proof. intros Hc E Hm. unfold inc_strong. erewrite bind_Ret by done. rewrite Hm. unfold bind. by rewrite uadd_max_checked. Qed.
  Lemma inc_weak_checked p rb d w : e_checks = true -> rc_inner p (d, w) = (Ret rb, (d, w)) ->
    r_weak rb = usize_max -> inc_weak p (d, w) = (Panic PArith, (d, w)).
  Proof. intros Hc E Hm. unfold inc_weak. erewrite bind_Ret by done. rewrite Hm. unfold bind. by rewrite uadd_max_checked. Qed.
  Lemma inc_strong_wraps p rb d w : e_checks = false -> rc_inner p (d, w) = (Ret rb, (d, w)) ->
    r_strong rb = usize_max -> exists w', inc_strong p (d, w) = (Ret usize_max, (d, w')) /\
      rc_inner p (d, w') = (Ret (RcBox 0 (r_weak rb) (r_val rb)), (d, w')).
  Proof.
    intros Hc E Hm. destruct (set_inner p rb (RcBox 0 (r_weak rb) (r_val rb)) d w) as [w' [Hs Hi]]; [by rewrite E|].
    exists w'. split; [|done]. unfold inc_strong. erewrite bind_Ret by done. rewrite Hm.
    erewrite bind_Ret by (by apply uadd_max_wraps). by erewrite bind_Ret by done.
  Qed.
  Lemma inc_weak_wraps p rb d w : e_checks = false -> rc_inner p (d, w) = (Ret rb, (d, w)) ->
    r_weak rb = usize_max -> exists w', inc_weak p (d, w) = (Ret usize_max, (d, w')) /\
      rc_inner p (d, w') = (Ret (RcBox (r_strong rb) 0 (r_val rb)), (d, w')).
  Proof.
    intros Hc E Hm. destruct (set_inner p rb (RcBox (r_strong rb) 0 (r_val rb)) d w) as [w' [Hs Hi]]; [by rewrite E|].
    exists w'. split; [|done]. unfold inc_weak. erewrite bind_Ret by done. rewrite Hm.
    erewrite bind_Ret by (by apply uadd_max_wraps). by erewrite bind_Ret by done.
  Qed.
End wrap.

(** A count at its greatest value: in builds with overflow checks the call that would increase it panics and
    nothing has changed, in every state. *)
Lemma p_C49_overflow_partial : forall (EN : Env) (T : Type) (EL : Elem T) tab d (w : world (rcbox T)) i n k,
  e_checks = true ->
  (fst (rexec (RCounts i) (tab, (d, w))) = Ret (RNums n k) ->
    (n = usize_max -> rexec (RClone i) (tab, (d, w)) = (Panic PArith, (tab, (d, w)))) /\
    (k = usize_max -> rexec (RDowngrade i) (tab, (d, w)) = (Panic PArith, (tab, (d, w))))) /\
  (fst (rexec (RWCounts i) (tab, (d, w))) = Ret (RNums n k) ->
    (n = usize_max -> rexec (RWUpgrade i) (tab, (d, w)) = (Panic PArith, (tab, (d, w)))) /\
    (k = usize_max -> rexec (RWClone i) (tab, (d, w)) = (Panic PArith, (tab, (d, w))))).
Proof.
  intros EN T EL tab d w i n k Hc. split; intros Ho.
  - apply rc_obs in Ho as (p & rb & Hi & E & <- & <-).
    split; intros Hm; unfold rexec, with_rc; cbn [fst]; rewrite Hi; unfold rc_clone, rc_downgrade, on_snd, bind; cbn [snd fst].
    + by erewrite inc_strong_checked.
    + by erewrite inc_weak_checked.
  - apply wk_obs in Ho as [(Hi & -> & ->)|(p & rb & Hi & E & <- & <-)]; [by split; intros|].
    split; intros Hm; unfold rexec, with_weak; cbn [fst]; rewrite Hi; unfold weak_upgrade, weak_clone, on_snd, bind; cbn [snd fst].
    + rewrite E. unfold is_dealloc. rewrite Hm. change (usize_max =? 0) with false. cbn [negb]. unfold bind. by erewrite inc_strong_checked.
    + by erewrite inc_weak_checked.
Qed.

(** An [Rc] and a [Weak] whose counters are at the end. *)
Lemma x_C49_overflow_ex :
  let tab := rtab env_debug [RNew 5; RDowngrade 0] in
  let w := set_slots (Blk 0) [Some (RcBox usize_max usize_max (Val 5))] (rworld env_debug [RNew 5; RDowngrade 0]) in
  @e_checks (@e_profile env_debug) = true /\
  fst (@rexec env_debug N num_drop (RCounts 0) (tab, ([], w))) = Ret (RNums usize_max usize_max) /\
  fst (@rexec env_debug N num_drop (RWCounts 1) (tab, ([], w))) = Ret (RNums usize_max usize_max) /\
  fst (@rexec env_debug N num_drop (RWUpgrade 1) (tab, ([], w))) = Panic PArith.
Proof. vm_compute. auto 10. Qed.

(** In the other builds the call returns a new handle and the count is zero. *)
Lemma p_C49_zero_refuted : forall (EN : Env) (T : Type) (EL : Elem T) tab d (w : world (rcbox T)) i n k,
  e_checks = false ->
  (fst (rexec (RCounts i) (tab, (d, w))) = Ret (RNums n k) ->
    (n = usize_max -> exists h s, rexec (RClone i) (tab, (d, w)) = (Ret RDone, (tab ++ [Some (HRc h)], s)) /\
       fst (rexec (RCounts i) (tab, s)) = Ret (RNums 0 k)) /\
    (k = usize_max -> exists h s, rexec (RDowngrade i) (tab, (d, w)) = (Ret RDone, (tab ++ [Some (HWeak h)], s)) /\
       fst (rexec (RCounts i) (tab, s)) = Ret (RNums n 0))) /\
  (fst (rexec (RWCounts i) (tab, (d, w))) = Ret (RNums n k) ->
    (n = usize_max -> exists h s, rexec (RWUpgrade i) (tab, (d, w)) = (Ret (RBool true), (tab ++ [Some (HRc h)], s)) /\
       fst (rexec (RWCounts i) (tab, s)) = Ret (RNums 0 k)) /\
    (k = usize_max -> exists h s, rexec (RWClone i) (tab, (d, w)) = (Ret RDone, (tab ++ [Some (HWeak h)], s)) /\
       fst (rexec (RWCounts i) (tab, s)) = Ret (RNums n 0))).
Proof.
  intros EN T EL tab d w i n k Hc. split; intros Ho.
  - apply rc_obs in Ho as (p & rb & Hi & E & <- & <-). split; intros Hm.
    + destruct (inc_strong_wraps p rb d w Hc E Hm) as (w' & Hs & E').
      exists p, (d, w'). split; [|apply (rc_obs_of i tab p _ d w' Hi E')].
      unfold rexec, with_rc; cbn [fst]; rewrite Hi; unfold rc_clone, on_snd, bind; cbn [snd fst]. by rewrite Hs.
    + destruct (inc_weak_wraps p rb d w Hc E Hm) as (w' & Hs & E').
      exists (Some p), (d, w'). split; [|apply (rc_obs_of i tab p _ d w' Hi E')].
      unfold rexec, with_rc; cbn [fst]; rewrite Hi; unfold rc_downgrade, on_snd, bind; cbn [snd fst]. by rewrite Hs.
  - apply wk_obs in Ho as [(Hi & -> & ->)|(p & rb & Hi & E & <- & <-)]; [by split; intros|]. split; intros Hm.
    + destruct (inc_strong_wraps p rb d w Hc E Hm) as (w' & Hs & E').
      exists p, (d, w'). split; [|apply (wk_obs_of i tab p _ d w' Hi E')].
      unfold rexec, with_weak; cbn [fst]; rewrite Hi; unfold weak_upgrade, on_snd, bind; cbn [snd fst].
      rewrite E. unfold is_dealloc. rewrite Hm. change (usize_max =? 0) with false. cbn [negb]. unfold bind. by rewrite Hs.
    + destruct (inc_weak_wraps p rb d w Hc E Hm) as (w' & Hs & E').
      exists (Some p), (d, w'). split; [|apply (wk_obs_of i tab p _ d w' Hi E')].
      unfold rexec, with_weak; cbn [fst]; rewrite Hi; unfold weak_clone, on_snd, bind; cbn [snd fst]. by rewrite Hs.
Qed.

(** An [Rc] and a [Weak] whose counters are at the end. *)
Lemma x_C49_zero_ex :
  let tab := rtab env_release [RNew 5; RDowngrade 0] in
  let w := set_slots (Blk 0) [Some (RcBox usize_max usize_max (Val 5))] (rworld env_release [RNew 5; RDowngrade 0]) in
  @e_checks (@e_profile env_release) = false /\
  fst (@rexec env_release N num_drop (RCounts 0) (tab, ([], w))) = Ret (RNums usize_max usize_max) /\
  fst (@rexec env_release N num_drop (RWCounts 1) (tab, ([], w))) = Ret (RNums usize_max usize_max) /\
  fst (@rrun env_release N num_drop [RClone 0; RWCounts 1; RWUpgrade 1] (tab, ([], w))) =
    [Ret RDone; Ret (RNums 0 usize_max); Ret (RBool false)].
Proof. vm_compute. auto 10. Qed.
