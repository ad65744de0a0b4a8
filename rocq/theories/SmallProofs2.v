(** [SmallVec] in either representation: reservation, transitions and the single operations. *)
From Verif Require Export SmallProofs.
From Coq Require Import ZifyBool ZifyNat ZifyN.

Section small.
  Context {EN : Env} {T : Type} {EL : Elem T} (Hz : 0 < t_size) (Cap : N) (HCap : fits Cap).
  Notation W := (world T).
  Notation MS := (M (svec T * W)).
  Implicit Types (w : W) (s : svec T) (xs : list T).

  (** The heap block of a [SmallVec], if it has one, and the rest of the heap. *)
  Definition sdata s : ptr := match sv_store s with Stack _ => Dangling | Heap v => vdata v end.
  Definition srest s w : gmap N (block T) := delete_ptr (sdata s) (heap w).
  (** [s] holds exactly [xs]. *)
  Definition srep w s xs : Prop :=
    wok w /\ match sv_store s with Stack k => skrep Cap k xs | Heap v => rep w v xs end.
  Definition skeeps s w s' w' (ds : list T) : Prop :=
    srest s' w' = srest s w /\ drops w' = drops w ++ ds /\ cur_scope w' = cur_scope w /\
    next_id w <= next_id w'.
  (** Capacity on the heap. *)
  Definition hcap s : N := match sv_store s with Stack _ => 0 | Heap v => vcap v end.

  Lemma skeeps_refl s w : skeeps s w s w [].
  Proof. unfold skeeps. rewrite app_nil_r. repeat split; lia. Qed.
  Lemma skeeps_trans s1 w1 s2 w2 s3 w3 d1 d2 :
    skeeps s1 w1 s2 w2 d1 -> skeeps s2 w2 s3 w3 d2 -> skeeps s1 w1 s3 w3 (d1 ++ d2).
  Proof.
    intros (?&?&?&?) (?&?&?&?). unfold skeeps. split_and!; try congruence; [|lia].
    match goal with Ha : drops w3 = _, Hb : drops w2 = _ |- _ => rewrite Ha, Hb end.
    by rewrite app_assoc.
  Qed.
  Lemma skeeps_trans_l s1 w1 s2 w2 s3 w3 d :
    skeeps s1 w1 s2 w2 [] -> skeeps s2 w2 s3 w3 d -> skeeps s1 w1 s3 w3 d.
  Proof. apply skeeps_trans. Qed.
  Lemma skeeps_heap v m w v' m' w' ds :
    keeps v w v' w' ds -> skeeps (SVec (Heap v) m) w (SVec (Heap v') m') w' ds.
  Proof. done. Qed.
  Lemma skeeps_stack k m k' m' w ds :
    skeeps (SVec (Stack k) m) w (SVec (Stack k') m') (add_drops ds w) ds.
  Proof.
    unfold skeeps, srest. simpl. rewrite heap_add_drops, drops_add_drops, cur_add_drops, next_add_drops.
    split_and!; try done.
  Qed.
  Lemma skeeps_stack0 k m k' m' w :
    skeeps (SVec (Stack k) m) w (SVec (Stack k') m') w [].
  Proof. apply (skeeps_stack k m k' m' w []). Qed.
  Lemma skeeps_drop s w s' w' ds x : skeeps s w s' w' ds -> skeeps s w s' (add_drop x w') (ds ++ [x]).
  Proof.
    intros (?&Hd&?&?). unfold skeeps, srest in *. simpl. split_and!; try done.
    rewrite Hd. by rewrite app_assoc.
  Qed.
  Lemma wok_drops w l : wok w -> wok (add_drops l w).
  Proof.
    intros [H1 H2]. unfold wok, fresh_ids. rewrite cur_add_drops, heap_add_drops, next_add_drops. done.
  Qed.
  Lemma rep_drops w v xs l : rep w v xs -> rep (add_drops l w) v xs.
  Proof. intros [Hl [rest Ho]]. split; [done|]. exists rest. by apply owns_drops. Qed.
  Lemma srep_drops w s xs l : srep w s xs -> srep (add_drops l w) s xs.
  Proof.
    intros [Hw Hs]. split; [by apply wok_drops|]. destruct (sv_store s); [done|]. by apply rep_drops.
  Qed.
  Lemma srep_drop w s xs x : srep w s xs -> srep (add_drop x w) s xs.
  Proof. apply (srep_drops w s xs [x]). Qed.

  Lemma srep_heap w v m xs : rep w v xs -> srep w (SVec (Heap v) m) xs.
  Proof. intros Hr. split; [by eapply rep_wok|done]. Qed.

  Lemma redirect_stack {A} (mk : M (stackvec T * W) A) mv k m w r k' w' :
    mk (k, w) = (r, (k', w')) ->
    redirect mk mv (SVec (Stack k) m, w) = (r, (SVec (Stack k') m, w')).
  Proof. intros E. unfold redirect. rewrite bind_get_fst. simpl. unfold on_stack. simpl. by rewrite E. Qed.
  Lemma redirect_heap {A} (mk : M (stackvec T * W) A) mv v m w r v' w' :
    mv (v, w) = (r, (v', w')) ->
    redirect mk mv (SVec (Heap v) m, w) = (r, (SVec (Heap v') m, w')).
  Proof. intros E. unfold redirect. rewrite bind_get_fst. simpl. unfold on_heap. simpl. by rewrite E. Qed.
  Lemma on_heap_eq {A} v (m : M (vec * W) A) s w r v' w' :
    m (v, w) = (r, (v', w')) -> on_heap v m (s, w) = (r, (SVec (Heap v') (sv_marker s), w')).
  Proof. intros E. unfold on_heap. simpl. by rewrite E. Qed.

  Lemma cap_bound : Cap <= isize_max.
  Proof. by apply (fits_bound Hz). Qed.
  Lemma srep_len w s xs : srep w s xs -> sv_len s = llen xs /\ llen xs <= sv_capacity Cap s /\
    sv_capacity Cap s <= isize_max.
  Proof.
    intros [Hw Hs]. unfold sv_len, sv_capacity. destruct (sv_store s) as [k|v].
    - destruct (skrep_len Hz Cap k xs Hs). pose proof cap_bound. done.
    - destruct (rep_cap Hz _ _ _ Hs) as [? Hf]. pose proof (fits_bound Hz _ Hf). by destruct Hs.
  Qed.

  (** Copying [l] behind the elements of a vector that has room. *)
  Lemma copy_tail_ok w v xs l :
    rep w v xs -> llen xs + llen l <= vcap v -> l <> [] ->
    exists w', copy_in (vdata v) (llen xs) (Some <$> l) w = (Ret tt, w') /\
      rep w' (Vec (v_ptr v) (llen xs + llen l)) (xs ++ l) /\
      keeps v w (Vec (v_ptr v) (llen xs + llen l)) w' [].
  Proof.
    intros [Hl [rest Ho]] Hcap Hne. pose proof (owns_cap Hz _ _ _ Ho) as Hc.
    rewrite app_length, fmap_length in Hc.
    assert (0 < llen l) as Hp by (destruct l; [done|simpl; lia]).
    assert ((Some <$> xs) ++ rest <> []) as Hs0.
    { intros E. apply (f_equal length) in E. rewrite app_length, fmap_length in E. simpl in E. lia. }
    pose proof (owns_slots _ _ _ Ho Hs0) as Hsl.
    erewrite copy_in_slots; [|exact Hsl|rewrite app_length, !fmap_length; lia].
    assert (take (N.to_nat (llen xs)) ((Some <$> xs) ++ rest) ++ (Some <$> l) ++
      drop (N.to_nat (llen xs) + length (Some <$> l)) ((Some <$> xs) ++ rest)
      = (Some <$> xs ++ l) ++ drop (length l) rest) as ->.
    { rewrite Nat2N.id. rewrite <-(fmap_length Some xs) at 1 2. rewrite take_app.
      rewrite drop_add_app by done. rewrite fmap_app, fmap_length, <-app_assoc. done. }
    destruct (owns_set_slots Hz w v _ ((Some <$> xs ++ l) ++ drop (length l) rest) Ho)
      as (Ho'&Hv&Hd&Hcu&Hn).
    { rewrite !app_length, !fmap_length, app_length, drop_length. lia. }
    { done. }
    eexists. split; [done|]. split.
    - split; [simpl; rewrite app_length; lia|]. eexists. by apply owns_len.
    - unfold keeps. unfold vrest in *. simpl in *. unfold vdata in *. rewrite app_nil_r. simpl. split_and!; try done. lia.
  Qed.

  Lemma min_cap_pos : 1 <= @min_non_zero_cap T EL.
  Proof. unfold min_non_zero_cap. repeat case_match; lia. Qed.

  Lemma move_ok w k m xs n :
    srep w (SVec (Stack k) m) xs -> fits (N.max (llen xs + n) 8) ->
    exists r s' w', sv_try_move_to_heap_and_reserve_exact n (SVec (Stack k) m, w) = (Ret r, (s', w')) /\
      skeeps (SVec (Stack k) m) w s' w' [] /\ srep w' s' xs /\
      ((r = Ok tt /\ exists v, sv_store s' = Heap v /\ vcap v = N.max (llen xs + n) min_non_zero_cap)
       \/ (r = Err AllocErr /\ s' = SVec (Stack k) m /\ refuses)).
  Proof.
    intros [Hw Hr] Hf. simpl in Hr. pose proof Hr as (Hl&Hlc&rest&Hs).
    pose proof (min_cap_le Hz) as Hm8. pose proof min_cap_pos as Hm1.
    pose proof (fits_bound Hz _ Hf) as Hb.
    unfold sv_try_move_to_heap_and_reserve_exact. rewrite bind_get_fst. cbn [sv_store sv_marker fst snd].
    rewrite Hl, bind_uadd by (unfold isize_max, usize_max in *; lia).
    set (c := N.max (llen xs + n) min_non_zero_cap).
    destruct (try_with_capacity_ok Hz w c m Hw) as (r&w1&He&Hd1&Hc1&Hn1&Hw1&Hcase).
    { eapply (fits_le Hz); [|exact Hf]. lia. }
    destruct Hcase as [(v&->&Hrv&Hv&Hvc)|(->&Hh&Hrf)].
    2: { erewrite (bind_on_snd_Ret _ _ _ _ (Err AllocErr)) by exact He.
         eexists _, _, w1. split; [reflexivity|]. split_and!.
         - unfold skeeps, srest. simpl. rewrite Hh, app_nil_r. done.
         - split; [done|]. simpl. done.
         - right. split_and!; try done. unfold refuses. eauto. }
    erewrite (bind_on_snd_Ret _ _ _ _ (Ok v)) by exact He. cbn iota beta.
    destruct (decide (xs = [])) as [->|Hne].
    - change (llen []) with 0. rewrite orb_true_r.
      erewrite bind_on_snd_Ret by reflexivity.
      erewrite bind_Ret.
      2: { apply on_heap_eq. destruct Hrv as [_ [rst Ho]]. eapply (vec_set_len_eq Hz); [exact Ho|lia]. }
      eexists _, _, w1. split; [reflexivity|]. split_and!.
      + unfold skeeps. rewrite app_nil_r. split_and!; [exact Hv|done..].
      + apply srep_heap. destruct Hrv as [_ Hrv]. split; [done|]. destruct Hrv as [rst Ho]. exists rst. by apply owns_len.
      + left. split; [done|]. eexists. split; [done|]. unfold vcap in *. simpl. done.
    - rewrite sz_pos by done. destruct (N.eqb_spec (llen xs) 0); [destruct xs; [done|simpl in *; lia]|].
      simpl orb. cbn iota.
      assert (take (N.to_nat (llen xs)) (sk_slots k) = Some <$> xs) as ->.
      { rewrite Hs, Nat2N.id. rewrite <-(fmap_length Some xs) at 1. by rewrite take_app. }
      destruct (copy_tail_ok w1 v [] xs Hrv) as (w2&He2&Hr2&Hk2); [simpl; lia|done|].
      change (llen []) with 0 in *. rewrite N.add_0_l in *. simpl app in Hr2.
      erewrite bind_on_snd_Ret by exact He2.
      erewrite bind_Ret.
      2: { apply on_heap_eq. destruct Hr2 as [_ [rst Ho]].
           apply (vec_set_len_eq Hz w2 v ((Some <$> xs) ++ rst)); [exact Ho|].
           rewrite app_length, fmap_length. lia. }
      eexists _, _, w2. split; [reflexivity|]. split_and!.
      + destruct Hk2 as (Hk2&Hd2&Hc2&Hn2). unfold skeeps.
        split_and!; [by etrans|congruence|congruence|lia].
      + by apply srep_heap.
      + left. split; [done|]. eexists. split; [done|]. unfold vcap in *. simpl. done.
  Qed.

  Lemma try_reserve_exact_sok w s xs n :
    srep w s xs -> fits (N.max (llen xs + n) 8) ->
    exists r s' w', sv_try_reserve_exact Cap n (s, w) = (Ret r, (s', w')) /\
      skeeps s w s' w' [] /\ srep w' s' xs /\ hcap s' <= N.max (hcap s) (N.max (llen xs + n) 8) /\
      (is_stack s' = true -> s' = s) /\
      ((r = Ok tt /\ llen xs + n <= sv_capacity Cap s' /\ (is_stack s' = true -> w' = w) /\
        (llen xs + n <= sv_capacity Cap s -> s' = s /\ w' = w))
       \/ (r = Err AllocErr /\ s' = s /\ refuses)).
  Proof.
    intros Hr Hf. pose proof (srep_len _ _ _ Hr) as (Hl&Hc&Hb).
    pose proof (fits_bound Hz _ Hf) as Hfb. pose proof (min_cap_le Hz).
    destruct s as [[k|v] m].
    - unfold sv_try_reserve_exact. rewrite bind_get_fst. cbn [sv_store sv_marker fst snd].
      unfold sv_len in Hl. simpl in Hl. rewrite Hl.
      rewrite guarded_add_ok by (unfold isize_max, usize_max in *; lia).
      destruct (N.ltb_spec Cap (llen xs + n)) as [Hlt|Hge].
      + destruct (move_ok w k m xs n Hr Hf) as (r&s'&w'&He&Hk&Hr'&Hcase).
        exists r, s', w'. split_and!; try done.
        * destruct Hcase as [(->&v&Hv&Hvc)|(->&->&_)]; [|simpl; lia].
          unfold hcap at 1. rewrite Hv, Hvc. lia.
        * destruct Hcase as [(->&v&Hv&Hvc)|(->&->&_)].
          -- unfold is_stack. by rewrite Hv.
          -- done.
        * destruct Hcase as [(->&v&Hv&Hvc)|(->&->&Hrf)]; [left|by right].
          split_and!; [done| | |].
          -- unfold sv_capacity. rewrite Hv, Hvc. lia.
          -- unfold is_stack. by rewrite Hv.
          -- unfold sv_capacity. simpl. lia.
      + exists (Ok tt), (SVec (Stack k) m), w. split_and!; try done; [apply skeeps_refl|lia|].
        left. unfold sv_capacity. simpl. done.
    - pose proof Hr as [Hw Hv]. simpl in Hv.
      destruct (try_reserve_exact_ok Hz w v xs n Hv) as (r&v'&w'&He&Hk&Hr'&Hcase).
      { eapply (fits_le Hz); [|exact Hf]. lia. }
      exists r, (SVec (Heap v') m), w'. split_and!.
      + unfold sv_try_reserve_exact. rewrite bind_get_fst. simpl. by apply on_heap_eq.
      + by apply skeeps_heap.
      + by apply srep_heap.
      + unfold hcap. simpl. destruct Hcase as [(->&?&?&H1&H2)|(->&->&_)]; [|lia].
        destruct (N.le_gt_cases (llen xs + n) (vcap v)) as [Hle|Hgt]; [destruct (H1 Hle) as [-> _]|rewrite (H2 Hgt)]; lia.
      + done.
      + destruct Hcase as [(->&?&?&H1&H2)|(->&->&_&Hrf)]; [left|right].
        * unfold sv_capacity. simpl. split_and!; try done. intros Hle. by destruct (H1 Hle) as [-> ->].
        * split_and!; try done. unfold refuses. eauto.
  Qed.

  Lemma try_reserve_sok w s xs n :
    srep w s xs -> fits (llen xs + n + 8) ->
    exists r s' w', sv_try_reserve Cap n (s, w) = (Ret r, (s', w')) /\
      skeeps s w s' w' [] /\ srep w' s' xs /\ hcap s' <= N.max (hcap s) (llen xs + n + 8) /\
      (is_stack s' = true -> s' = s) /\
      ((r = Ok tt /\ llen xs + n <= sv_capacity Cap s' /\ (is_stack s' = true -> w' = w))
       \/ (r = Err AllocErr /\ s' = s /\ refuses)).
  Proof.
    intros Hr Hf. pose proof (srep_len _ _ _ Hr) as (Hl&Hc&Hb).
    pose proof (fits_bound Hz _ Hf) as Hfb. pose proof (min_cap_le Hz).
    unfold sv_try_reserve. rewrite bind_get_fst.
    rewrite guarded_add_ok by (unfold isize_max, usize_max in *; lia).
    rewrite bind_usub by lia.
    set (k := N.max min_non_zero_cap (sv_capacity Cap s + n) - sv_capacity Cap s).
    destruct (try_reserve_exact_sok w s xs k Hr) as (r&s'&w'&He&Hk&Hr'&Hh&Hst&Hcase).
    { eapply (fits_le Hz); [|exact Hf]. lia. }
    exists r, s', w'. split_and!; try done; [lia|].
    destruct Hcase as [(->&?&?&_)|?]; [left|by right]. split_and!; try done. lia.
  Qed.
  Lemma reserve_sok w s xs n :
    srep w s xs -> fits (llen xs + n + 8) ->
    exists r s' w', sv_reserve Cap n (s, w) = (r, (s', w')) /\
      skeeps s w s' w' [] /\ srep w' s' xs /\ hcap s' <= N.max (hcap s) (llen xs + n + 8) /\
      (is_stack s' = true -> s' = s) /\
      ((r = Ret tt /\ llen xs + n <= sv_capacity Cap s' /\ (is_stack s' = true -> w' = w))
       \/ (r = Panic PUnwrap /\ s' = s /\ refuses)).
  Proof.
    intros Hr Hf. destruct (try_reserve_sok w s xs n Hr Hf) as (r&s'&w'&He&Hk&Hr'&Hh&Hst&Hcase).
    destruct Hcase as [(->&?&?)|(->&?&?)].
    - exists (Ret tt), s', w'. unfold sv_reserve. erewrite bind_Ret by exact He. split_and!; try done. by left.
    - exists (Panic PUnwrap), s', w'. unfold sv_reserve. erewrite bind_Ret by exact He.
      split_and!; try done. by right.
  Qed.
  Lemma reserve_exact_sok w s xs n :
    srep w s xs -> fits (N.max (llen xs + n) 8) ->
    exists r s' w', sv_reserve_exact Cap n (s, w) = (r, (s', w')) /\
      skeeps s w s' w' [] /\ srep w' s' xs /\ hcap s' <= N.max (hcap s) (N.max (llen xs + n) 8) /\
      (is_stack s' = true -> s' = s) /\
      ((r = Ret tt /\ llen xs + n <= sv_capacity Cap s' /\ (is_stack s' = true -> w' = w))
       \/ (r = Panic PUnwrap /\ s' = s /\ refuses)).
  Proof.
    intros Hr Hf. destruct (try_reserve_exact_sok w s xs n Hr Hf) as (r&s'&w'&He&Hk&Hr'&Hh&Hst&Hcase).
    destruct Hcase as [(->&?&?&_)|(->&?&?)].
    - exists (Ret tt), s', w'. unfold sv_reserve_exact. erewrite bind_Ret by exact He. split_and!; try done. by left.
    - exists (Panic PUnwrap), s', w'. unfold sv_reserve_exact. erewrite bind_Ret by exact He.
      split_and!; try done. by right.
  Qed.

  (** When the reservation before [push] and [insert] leaves the elements inline: exactly when the
      array still has room for the larger of one and [MIN_NON_ZERO_CAP - N] elements. *)
  Definition roomy (n : N) : Prop := n + N.max (min_non_zero_cap - Cap) 1 <= Cap.
  Lemma reserve_one_inline w k m xs :
    srep w (SVec (Stack k) m) xs -> roomy (llen xs) ->
    sv_reserve Cap 1 (SVec (Stack k) m, w) = (Ret tt, (SVec (Stack k) m, w)).
  Proof.
    intros [Hw Hr] Hro. simpl in Hr. pose proof Hr as (Hl&_). pose proof cap_bound. unfold roomy in Hro.
    pose proof (min_cap_le Hz).
    unfold sv_reserve. erewrite (bind_Ret _ _ _ (Ok tt)); [reflexivity|].
    unfold sv_try_reserve. rewrite bind_get_fst. unfold sv_capacity. cbn [sv_store].
    rewrite guarded_add_ok by (unfold isize_max, usize_max in *; lia).
    rewrite bind_usub by lia. unfold sv_try_reserve_exact. rewrite bind_get_fst. cbn [sv_store].
    rewrite Hl. rewrite guarded_add_ok by (unfold isize_max, usize_max in *; lia).
    destruct (N.ltb_spec Cap (llen xs + (N.max min_non_zero_cap (Cap + 1) - Cap))); [lia|done].
  Qed.
  Lemma reserve_one_heap w k m xs s' w' :
    srep w (SVec (Stack k) m) xs -> fits (llen xs + 1 + 8) -> ~ roomy (llen xs) ->
    sv_reserve Cap 1 (SVec (Stack k) m, w) = (Ret tt, (s', w')) -> is_stack s' = false.
  Proof.
    intros Hs Hf Hro. pose proof Hs as [Hw Hr]. simpl in Hr. pose proof Hr as (Hl&_).
    pose proof cap_bound. pose proof (skrep_len Hz _ _ _ Hr). unfold roomy in Hro.
    pose proof (min_cap_le Hz). pose proof (fits_bound Hz _ Hf) as Hfb.
    unfold sv_reserve. unfold sv_try_reserve. rewrite bind_assoc, bind_get_fst. unfold sv_capacity. cbn [sv_store].
    rewrite bind_assoc. rewrite guarded_add_ok by (unfold isize_max, usize_max in *; lia).
    rewrite bind_assoc. rewrite bind_usub by lia. unfold sv_try_reserve_exact.
    rewrite bind_assoc, bind_get_fst. cbn [sv_store]. rewrite bind_assoc.
    rewrite Hl. rewrite guarded_add_ok by (unfold isize_max, usize_max in *; lia).
    destruct (N.ltb_spec Cap (llen xs + (N.max min_non_zero_cap (Cap + 1) - Cap))); [|lia].
    destruct (move_ok w k m xs (N.max min_non_zero_cap (Cap + 1) - Cap) Hs) as (r&s1&w1&He&Hk&Hr'&Hcase).
    { eapply (fits_le Hz); [|exact Hf]. lia. }
    erewrite bind_Ret by exact He.
    destruct Hcase as [(->&v&Hv&_)|(->&_)]; [|by intros [=]]. intros [= <- <-]. unfold is_stack. by rewrite Hv.
  Qed.

  Lemma on_unwind_drop_s {A} (m : MS A) s w p s' w' x :
    m (s, w) = (Panic p, (s', w')) ->
    on_unwind m (on_snd (drop_val x)) (s, w) = (unwound p x, (s', add_drop x w')).
  Proof.
    intros Hm. unfold on_unwind. rewrite Hm. unfold on_snd, drop_val, unwound. simpl.
    by destruct (t_needs_drop && t_drop_panics x).
  Qed.
  Lemma bind_unwound_s {A B} (m : MS A) (f : A -> MS B) st p x st' :
    m st = (unwound p x, st') -> bind m f st = (unwound p x, st').
  Proof. intros E. unfold bind. rewrite E. unfold unwound. by destruct (t_needs_drop && t_drop_panics x). Qed.

  Lemma push_sok w s xs x :
    srep w s xs -> fits (llen xs + 9) ->
    exists r s' w', sv_push Cap x (s, w) = (r, (s', w')) /\
      ((r = Ret tt /\ srep w' s' (xs ++ [x]) /\ skeeps s w s' w' [] /\
        hcap s' <= N.max (hcap s) (llen xs + 9))
       \/ (r = unwound PUnwrap x /\ srep w' s' xs /\ skeeps s w s' w' [x] /\ s' = s /\ refuses)).
  Proof.
    intros Hr Hf. assert (fits (llen xs + 1 + 8)) as Hf' by (by rewrite <-N.add_assoc).
    destruct (reserve_sok w s xs 1 Hr Hf') as (r&s1&w1&He&Hk&Hr1&Hh&Hst&Hcase).
    unfold sv_push. destruct Hcase as [(->&Hroom&Hw)|(->&->&Hrf)].
    - erewrite (bind_Ret _ _ _ tt) by (apply on_unwind_Ret; exact He).
      destruct s1 as [[k|v] m].
      + pose proof Hr1 as [Hwk Hr1']. simpl in Hr1'. unfold sv_capacity in Hroom. simpl in Hroom.
        destruct (sk_push_ok Hz Cap k xs x w1 Hr1') as (k'&He'&Hr2); [lia|apply cap_bound|].
        eexists _, _, _. split; [by apply redirect_stack|]. left. split_and!; [done| | |].
        * by split.
        * eapply skeeps_trans_l; [exact Hk|]. apply skeeps_stack0.
        * unfold hcap at 1. simpl. lia.
      + pose proof Hr1 as [Hwk Hr1']. simpl in Hr1'. unfold sv_capacity in Hroom. simpl in Hroom.
        destruct (push_ok Hz w1 v xs x Hr1') as (r&v'&w'&He'&Hc).
        { eapply (fits_le Hz); [|exact Hf]. lia. }
        destruct Hc as [(->&Hr'&Hk'&Hc)|(->&Hr'&Hk'&->&Hc&Hrf)]; [|lia].
        eexists _, _, _. split; [by apply redirect_heap|]. left. split_and!; [done| | |].
        * by apply srep_heap.
        * eapply skeeps_trans_l; [exact Hk|]. by apply skeeps_heap.
        * unfold hcap at 1. unfold hcap in Hh at 1. simpl in *. lia.
    - eexists _, _, _. split.
      { apply bind_unwound_s. apply on_unwind_drop_s. exact He. }
      right. split_and!; try done. by apply (skeeps_drop _ _ _ _ []).
  Qed.

  (** [insert], apart from the calls that are not defined. *)
  Definition insert_undef s (n i : N) : Prop :=
    is_stack s = true /\ roomy n /\
    ((e_strict = true /\ (i = n \/ (n < i /\ e_checks = false))) \/
     (e_strict = false /\ n < i /\ e_checks = false)).
  Lemma insert_sok w s xs i x :
    srep w s xs -> fits (llen xs + 9) -> ~ insert_undef s (llen xs) i ->
    exists r s' w', sv_insert Cap i x (s, w) = (r, (s', w')) /\
      ((i <= llen xs /\ r = Ret tt /\
        srep w' s' (take (N.to_nat i) xs ++ x :: drop (N.to_nat i) xs) /\ skeeps s w s' w' [] /\
        hcap s' <= N.max (hcap s) (llen xs + 9))
       \/ (r = unwound PUnwrap x /\ srep w' s' xs /\ skeeps s w s' w' [x] /\ s' = s /\ refuses)
       \/ (llen xs < i /\ (r = unwound PAssert x \/ r = unwound PDebugAssert x) /\ srep w' s' xs /\
           skeeps s w s' w' [x] /\ hcap s' <= N.max (hcap s) (llen xs + 9))).
  Proof.
    intros Hr Hf Hu. assert (fits (llen xs + 1 + 8)) as Hf' by (by rewrite <-N.add_assoc).
    destruct (reserve_sok w s xs 1 Hr Hf') as (r&s1&w1&He&Hk&Hr1&Hh&Hst&Hcase).
    unfold sv_insert. destruct Hcase as [(->&Hroom&Hw)|(->&->&Hrf)].
    - erewrite (bind_Ret _ _ _ tt) by (apply on_unwind_Ret; exact He).
      destruct s1 as [[k|v] m].
      + specialize (Hst eq_refl). subst s. specialize (Hw eq_refl). subst w1.
        pose proof Hr1 as [Hwk Hr1']. simpl in Hr1'. unfold sv_capacity in Hroom. simpl in Hroom.
        assert (roomy (llen xs)) as Hro.
        { unfold roomy. apply N.nlt_ge. intros Hro.
          eapply reserve_one_heap in He; [done|exact Hr|done|unfold roomy; lia]. }
        destruct (N.le_gt_cases i (llen xs)) as [Hi|Hi].
        * destruct (sk_insert_ok Hz Cap k xs i x w Hr1') as (k'&He'&Hr2); [lia|lia|apply cap_bound| |].
          { destruct (@e_strict e_profile) eqn:Es; [right|by left].
            destruct (N.eq_dec i (llen xs)) as [->|]; [|lia].
            exfalso. apply Hu. split_and!; [done|done|]. left. split; [done|]. by left. }
          eexists _, _, _. split; [by apply redirect_stack|]. left. split_and!; [done|done| | |].
          -- by split.
          -- apply skeeps_stack0.
          -- unfold hcap at 1. simpl. lia.
        * assert (e_checks = true) as Hch.
          { destruct (@e_checks e_profile) eqn:Ec; [done|]. exfalso. apply Hu. split_and!; [done|done|].
            destruct (@e_strict e_profile); [left|right]; split_and!; try done. right. split; [lia|done]. }
          eexists _, _, _. split.
          { apply redirect_stack. unfold sk_unchecked_insert.
            assert (on_unwind (k0 <- get_fst; debug_assert (i <=? sk_len k0);;
               assume (i <? sk_len k0) Precond;; usub (sk_len k0) i) (on_snd (drop_val x)) (k, w)
               = (unwound PDebugAssert x, (k, add_drop x w))) as E.
            { unfold on_unwind. rewrite bind_get_fst. unfold debug_assert. rewrite Hch.
              destruct Hr1' as (->&_). rewrite (proj2 (N.leb_gt _ _)) by done. simpl.
              unfold unwound. by destruct (t_needs_drop && t_drop_panics x). }
            unfold bind at 1. rewrite E. instantiate (1 := add_drop x w). instantiate (1 := k).
            instantiate (1 := unwound PDebugAssert x).
            unfold unwound. by destruct (t_needs_drop && t_drop_panics x). }
          right. right. split_and!; [lia|by right| | |].
          -- by apply srep_drop.
          -- by apply (skeeps_drop _ _ _ _ []).
          -- unfold hcap at 1. simpl. lia.
      + pose proof Hr1 as [Hwk Hr1']. simpl in Hr1'. unfold sv_capacity in Hroom. simpl in Hroom.
        unfold hcap in Hh at 1. simpl in Hh.
        destruct (insert_ok Hz w1 v xs i x Hr1') as (r&v'&w'&He'&Hc).
        { eapply (fits_le Hz); [|exact Hf]. lia. }
        destruct Hc as [(Hi&->&Hr'&Hk'&Hc)|[(Hi&->&Hr'&Hk'&->&Hc&Hrf)|(Hi&->&Hr'&Hk'&->)]]; [|lia|].
        * eexists _, _, _. split; [by apply redirect_heap|]. left. split_and!; [done|done| | |].
          -- by apply srep_heap.
          -- eapply skeeps_trans_l; [exact Hk|]. by apply skeeps_heap.
          -- unfold hcap at 1. simpl in *. lia.
        * eexists _, _, _. split; [by apply redirect_heap|]. right. right. split_and!; [done|by left| | |].
          -- by apply srep_heap.
          -- eapply skeeps_trans_l; [exact Hk|]. by apply skeeps_heap.
          -- unfold hcap at 1. simpl in *. lia.
    - eexists _, _, _. split.
      { apply bind_unwound_s. apply on_unwind_drop_s. exact He. }
      right. left. split_and!; try done. by apply (skeeps_drop _ _ _ _ []).
  Qed.
  Lemma insert_undef_ub w s xs i x :
    srep w s xs -> insert_undef s (llen xs) i ->
    exists st, sv_insert Cap i x (s, w) =
      (UB (if e_strict then Precond else OutOfBounds), st).
  Proof.
    intros Hr (Hst&Hro&Hu). destruct s as [[k|v] m]; [|done].
    unfold sv_insert. erewrite (bind_Ret _ _ _ tt).
    2: { apply on_unwind_Ret. by eapply reserve_one_inline. }
    destruct Hr as [Hw Hr]. simpl in Hr. pose proof Hr as (Hl&Hc&_). pose proof cap_bound.
    pose proof (skrep_len Hz _ _ _ Hr) as [_ Hle].
    eexists. apply redirect_stack. unfold sk_unchecked_insert.
    destruct Hu as [(Hs&Hi)|(Hs&Hi&Hch)]; rewrite Hs.
    - erewrite bind_UB; [reflexivity|]. apply on_unwind_UB. rewrite bind_get_fst.
      assert (debug_assert (i <=? sk_len k) (k, w) = (Ret tt, (k, w))) as E.
      { unfold debug_assert. destruct Hi as [->|[? ->]]; [|done].
        rewrite Hl, N.leb_refl. by destruct (@e_checks e_profile). }
      erewrite bind_Ret by exact E. unfold assume. rewrite Hs, Hl.
      replace (i <? llen xs) with false by lia. done.
    - erewrite (bind_Ret _ _ _ (llen xs + two64 - i)).
      2: { apply on_unwind_Ret. rewrite bind_get_fst. unfold debug_assert, assume. rewrite Hch, Hs.
           rewrite Hl. unfold usub. rewrite Hch.
           replace (i <=? llen xs) with false by lia. reflexivity. }
      assert (Cap < two64) by (unfold isize_max, two64 in *; lia).
      unfold sk_copy. rewrite sz_pos, orb_false_l by done.
      destruct (N.eqb_spec (llen xs + two64 - i) 0) as [Hc0|Hc0].
      + erewrite bind_Ret by reflexivity. erewrite bind_UB; [reflexivity|].
        unfold sk_write. rewrite sz_pos, bind_get_fst by done.
        replace (i <? llen (sk_slots k)) with false by lia. reflexivity.
      + erewrite bind_UB; [reflexivity|]. rewrite bind_get_fst.
        replace (i + (llen xs + two64 - i) <=? llen (sk_slots k)) with false by lia. reflexivity.
  Qed.
End small.
