(** Proofs about [SmallVec]: the inline vector, then each operation in both representations. *)
From Verif Require Export VecRun SmallModel.
From Coq Require Import ZifyBool ZifyNat ZifyN.

Section stack.
  Context {EN : Env} {T : Type} {EL : Elem T} (Hz : 0 < t_size) (Cap : N).
  Notation W := (world T).
  Implicit Types (w : W) (k : stackvec T) (s : list (option T)) (xs : list T).

  Lemma sz_pos : (t_size =? 0) = false.
  Proof. lia. Qed.

  (** [k] is an inline vector holding exactly [xs]. *)
  Definition skrep k xs : Prop :=
    sk_len k = llen xs /\ llen (sk_slots k) = Cap /\ exists rest, sk_slots k = (Some <$> xs) ++ rest.

  Lemma skrep_len k xs : skrep k xs -> sk_len k = llen xs /\ llen xs <= Cap.
  Proof.
    intros (Hl&Hc&rest&Hs). split; [done|]. rewrite Hs, app_length, fmap_length in Hc. lia.
  Qed.
  Lemma skrep_take k xs n : skrep k xs -> n <= llen xs -> skrep (StackVec (sk_slots k) n) (take (N.to_nat n) xs).
  Proof.
    intros (Hl&Hc&rest&Hs) Hn. split_and!; simpl; [rewrite take_length; lia|done|].
    exists ((Some <$> drop (N.to_nat n) xs) ++ rest).
    by rewrite app_assoc, <-fmap_app, take_drop.
  Qed.
  Lemma skrep_new : skrep (sk_new Cap) [].
  Proof.
    split_and!; [done|simpl; rewrite replicate_length; lia|]. by eexists.
  Qed.

  Lemma sk_set_len_eq k w n :
    n <= Cap -> sk_set_len Cap n (k, w) = (Ret tt, (StackVec (sk_slots k) n, w)).
  Proof. intros Hn. unfold sk_set_len. rewrite bind_get_fst, bind_debug_assert; [done|lia]. Qed.
  Lemma sk_read_eq k w i x :
    sk_slots k !! N.to_nat i = Some (Some x) -> sk_read i (k, w) = (Ret x, (k, w)).
  Proof.
    intros Hi. unfold sk_read. rewrite sz_pos, bind_get_fst.
    rewrite slot_of_Some by (apply lookup_lt_Some in Hi; lia). by rewrite Hi.
  Qed.
  Lemma sk_write_eq k w i x :
    i < llen (sk_slots k) ->
    sk_write i x (k, w) = (Ret tt, (StackVec (<[N.to_nat i := Some x]> (sk_slots k)) (sk_len k), w)).
  Proof.
    intros Hi. unfold sk_write. rewrite sz_pos, bind_get_fst, (proj2 (N.ltb_lt _ _)) by done. done.
  Qed.
  Lemma sk_drop_at_eq k w i x :
    sk_slots k !! N.to_nat i = Some (Some x) ->
    sk_drop_at i (k, w) = (drop_res x, (k, add_drop x w)).
  Proof.
    intros Hi. unfold sk_drop_at. rewrite sz_pos, bind_get_fst.
    rewrite slot_of_Some by (apply lookup_lt_Some in Hi; lia). rewrite Hi.
    by apply on_snd_Ret.
  Qed.
  Lemma sk_drop_range_eq l : forall k w i,
    take (length l) (drop (N.to_nat i) (sk_slots k)) = Some <$> l ->
    sk_drop_range i (length l) (k, w) =
      (snd (drops_until l), (k, add_drops (fst (drops_until l)) w)).
  Proof.
    induction l as [|x l IH]; intros k w i Hl; [done|]. simpl in Hl.
    destruct (drop (N.to_nat i) (sk_slots k)) as [|y s'] eqn:Hd; [done|]. simpl in Hl.
    injection Hl as -> Hl.
    assert (sk_slots k !! N.to_nat i = Some (Some x)) as Hi.
    { rewrite <-(Nat.add_0_r (N.to_nat i)), <-lookup_drop, Hd. done. }
    simpl. unfold bind. rewrite (sk_drop_at_eq _ _ _ _ Hi). unfold drop_res.
    destruct (t_needs_drop && t_drop_panics x); [done|].
    rewrite IH.
    - by destruct (drops_until l).
    - replace (N.to_nat (i + 1)) with (N.to_nat i + 1)%nat by lia.
      rewrite <-drop_drop, Hd. simpl. by rewrite drop_0.
  Qed.
  Lemma sk_drop_all k xs w :
    skrep k xs -> sk_drop_range 0 (N.to_nat (llen xs)) (k, w) =
      (snd (drops_until xs), (k, add_drops (fst (drops_until xs)) w)).
  Proof.
    intros (_&_&rest&Hs). rewrite Nat2N.id. apply sk_drop_range_eq. rewrite Hs.
    change (N.to_nat 0) with 0%nat. rewrite drop_0.
    rewrite <-(fmap_length Some xs). by rewrite take_app.
  Qed.
  Lemma sk_read_list_eq l : forall k w i,
    take (length l) (drop (N.to_nat i) (sk_slots k)) = Some <$> l ->
    sk_read_list i (length l) (k, w) = (Ret l, (k, w)).
  Proof.
    induction l as [|x l IH]; intros k w i Hl; [done|]. simpl in Hl.
    destruct (drop (N.to_nat i) (sk_slots k)) as [|y s'] eqn:Hd; [done|]. simpl in Hl.
    injection Hl as -> Hl.
    assert (sk_slots k !! N.to_nat i = Some (Some x)) as Hi.
    { rewrite <-(Nat.add_0_r (N.to_nat i)), <-lookup_drop, Hd. done. }
    simpl. erewrite bind_Ret by (by apply sk_read_eq).
    erewrite bind_Ret; [done|]. apply IH.
    replace (N.to_nat (i + 1)) with (N.to_nat i + 1)%nat by lia.
    rewrite <-drop_drop, Hd. simpl. by rewrite drop_0.
  Qed.
  Lemma sk_as_slice_ok k xs w : skrep k xs -> sk_as_slice (k, w) = (Ret xs, (k, w)).
  Proof.
    intros (Hl&_&rest&Hs). unfold sk_as_slice. rewrite bind_get_fst, Hl, Nat2N.id.
    apply sk_read_list_eq. rewrite Hs. change (N.to_nat 0) with 0%nat. rewrite drop_0.
    rewrite <-(fmap_length Some xs). by rewrite take_app.
  Qed.
  Lemma sk_copy_eq k w i j n :
    i + n <= llen (sk_slots k) -> j + n <= llen (sk_slots k) ->
    sk_copy i j n (k, w) = (Ret tt, (StackVec (copied (sk_slots k) i (sk_slots k) j n) (sk_len k), w)).
  Proof.
    intros Hi Hj. unfold sk_copy. rewrite sz_pos, orb_false_l. destruct (N.eqb_spec n 0) as [->|].
    - rewrite copied_0. by destruct k.
    - cbn iota. rewrite bind_get_fst. rewrite !(proj2 (N.leb_le _ _)) by done. done.
  Qed.
  Lemma skrep_lookup k xs i x : skrep k xs -> xs !! i = Some x -> sk_slots k !! i = Some (Some x).
  Proof. intros (_&_&rest&->) Hx. by apply lookup_slots. Qed.

  Lemma sk_clear_ok k xs w :
    skrep k xs ->
    exists k', sk_clear Cap (k, w) = (snd (drops_until xs), (k', add_drops (fst (drops_until xs)) w))
      /\ skrep k' [].
  Proof.
    intros Hr. pose proof Hr as (Hl&Hc&rest&Hs). unfold sk_clear. rewrite bind_get_fst.
    erewrite bind_Ret by (apply sk_set_len_eq; lia). rewrite Hl, Nat2N.id.
    exists (StackVec (sk_slots k) 0). split; [|by apply (skrep_take k xs 0); [done|lia]].
    apply sk_drop_range_eq. simpl. rewrite Hs. change (N.to_nat 0) with 0%nat. rewrite drop_0.
    rewrite <-(fmap_length Some xs). by rewrite take_app.
  Qed.

  Lemma sk_push_ok k xs x w :
    skrep k xs -> llen xs < Cap -> Cap <= isize_max ->
    exists k', sk_unchecked_push Cap x (k, w) = (Ret tt, (k', w)) /\ skrep k' (xs ++ [x]).
  Proof.
    intros Hr Hlt Hb. pose proof Hr as (Hl&Hc&rest&Hs). unfold sk_unchecked_push.
    erewrite (bind_Ret _ _ _ tt).
    2: { apply on_unwind_Ret. rewrite bind_get_fst. unfold sk_is_full, assert. rewrite Hl.
         destruct (N.eqb_spec (llen xs) Cap); [lia|done]. }
    rewrite bind_get_fst. erewrite bind_Ret by (apply sk_write_eq; lia).
    rewrite Hl, bind_uadd by (unfold isize_max, usize_max in *; lia).
    erewrite sk_set_len_eq by lia. eexists. split; [done|]. split_and!; simpl.
    - rewrite app_length. simpl. lia.
    - by rewrite insert_length.
    - destruct rest as [|r rest].
      { rewrite Hs, app_nil_r, fmap_length in Hc. lia. }
      exists rest. rewrite Hs, fmap_app, <-app_assoc, Nat2N.id.
      replace (length xs) with (length (Some <$> xs) + 0)%nat by (rewrite fmap_length; lia).
      by rewrite insert_app_r.
  Qed.

  Lemma sk_pop_ok k xs w :
    skrep k xs ->
    exists k', sk_pop Cap (k, w) = (Ret (last xs), (k', w)) /\ skrep k' (take (length xs - 1) xs).
  Proof.
    intros Hr. pose proof (skrep_len _ _ Hr) as [Hl Hc]. unfold sk_pop. rewrite bind_get_fst, Hl.
    destruct xs as [|y ys _] using rev_ind; [by exists k|].
    rewrite app_length in *. simpl in *. destruct (N.eqb_spec (N.of_nat (length ys + 1)) 0); [lia|].
    rewrite bind_usub by lia.
    erewrite bind_Ret.
    2: { apply sk_read_eq. eapply skrep_lookup; [done|].
         replace (N.to_nat _) with (length ys + 0)%nat by lia. by rewrite lookup_app_r, Nat.add_comm, Nat.add_sub by lia. }
    erewrite bind_Ret by (apply sk_set_len_eq; lia). rewrite last_snoc. eexists. split; [done|].
    replace (length ys + 1 - 1)%nat with (N.to_nat (N.of_nat (length ys + 1) - 1)) by lia.
    apply skrep_take; [done|]. rewrite app_length. simpl. lia.
  Qed.

  Lemma sk_insert_ok k xs i x w :
    skrep k xs -> i <= llen xs -> llen xs < Cap -> Cap <= isize_max ->
    (e_strict = false \/ i < llen xs) ->
    exists k', sk_unchecked_insert Cap i x (k, w) = (Ret tt, (k', w)) /\
      skrep k' (take (N.to_nat i) xs ++ x :: drop (N.to_nat i) xs).
  Proof.
    intros Hr Hi Hlt Hb Hst. pose proof Hr as (Hl&Hc&rest&Hs). unfold sk_unchecked_insert.
    erewrite (bind_Ret _ _ _ (llen xs - i)).
    2: { apply on_unwind_Ret. rewrite bind_get_fst, bind_debug_assert by lia. rewrite Hl.
         assert (forall A (m : M (stackvec T * W) A) st, (assume (i <? llen xs) Precond ;; m) st = m st) as ->.
         { intros A m st. unfold assume. destruct Hst as [-> | Hst]; [done|].
           rewrite (proj2 (N.ltb_lt _ _)) by done. by rewrite andb_false_r. }
         unfold usub. by rewrite (proj2 (N.leb_le _ _)). }
    erewrite bind_Ret by (apply sk_copy_eq; lia).
    erewrite bind_Ret.
    2: { apply sk_write_eq. simpl. unfold copied. rewrite !app_length, !take_length, !drop_length. lia. }
    rewrite bind_get_fst. simpl sk_len. rewrite Hl, bind_uadd by (unfold isize_max, usize_max in *; lia).
    erewrite sk_set_len_eq by lia. eexists. split; [done|]. simpl.
    destruct rest as [|r rest].
    { rewrite Hs, app_nil_r, fmap_length in Hc. lia. }
    assert (Some <$> xs = (Some <$> take (N.to_nat i) xs) ++ (Some <$> drop (N.to_nat i) xs)) as Hsp
      by (by rewrite <-fmap_app, take_drop).
    assert (length (Some <$> take (N.to_nat i) xs) = N.to_nat i) as Hla.
    { rewrite fmap_length, take_length. lia. }
    assert (length (Some <$> drop (N.to_nat i) xs) = N.to_nat (llen xs - i)) as Hlb.
    { rewrite fmap_length, drop_length. lia. }
    set (A := Some <$> take (N.to_nat i) xs) in *. set (B := Some <$> drop (N.to_nat i) xs) in *.
    assert (<[N.to_nat i := Some x]> (copied (sk_slots k) i (sk_slots k) (i + 1) (llen xs - i))
            = A ++ Some x :: B ++ rest) as ->.
    { rewrite (copied_app A B [] (r :: rest)) by (try done; rewrite Hs, Hsp; by rewrite <-app_assoc).
      assert (exists y, take (N.to_nat (i + 1)) (sk_slots k) = A ++ [y]) as [y ->].
      { rewrite Hs, Hsp, <-app_assoc. replace (N.to_nat (i + 1)) with (length A + 1)%nat by lia.
        rewrite take_add_app by done. destruct B; eauto. }
      assert (drop (N.to_nat (i + 1) + N.to_nat (llen xs - i)) (sk_slots k) = rest) as ->.
      { rewrite Hs, Hsp. replace (_ + _)%nat with (length (A ++ B) + 1)%nat by (rewrite app_length; lia).
        rewrite drop_add_app by done. done. }
      rewrite <-app_assoc. replace (N.to_nat i) with (length A + 0)%nat by lia.
      rewrite insert_app_r. done. }
    split_and!; simpl.
    - rewrite app_length. simpl. rewrite take_length, drop_length. lia.
    - rewrite app_length. simpl. rewrite app_length. rewrite Hs, app_length, fmap_length in Hc. simpl in Hc. lia.
    - exists rest. rewrite fmap_app, fmap_cons, <-app_assoc. done.
  Qed.

  (** [remove] needs a free slot behind the elements, since it copies one slot too many. *)
  Lemma sk_remove_ok k xs i x w :
    skrep k xs -> xs !! N.to_nat i = Some x -> llen xs < Cap ->
    exists k', sk_remove Cap i (k, w) = (Ret x, (k', w)) /\ skrep k' (delete (N.to_nat i) xs).
  Proof.
    intros Hr Hx Hlt. pose proof Hr as (Hl&Hc&rest&Hs). pose proof (lookup_lt_Some _ _ _ Hx) as Hi.
    unfold sk_remove, sk_unchecked_remove.
    rewrite bind_get_fst, bind_assert, bind_get_fst, bind_debug_assert by lia.
    erewrite bind_Ret by (by apply sk_read_eq; eapply skrep_lookup).
    rewrite bind_usub by lia. erewrite bind_Ret by (apply sk_copy_eq; lia).
    rewrite bind_usub by lia. erewrite bind_Ret by (apply sk_set_len_eq; lia).
    eexists. split; [done|]. simpl.
    destruct rest as [|r rest].
    { rewrite Hs, app_nil_r, fmap_length in Hc. lia. }
    rewrite delete_take_drop.
    assert (Some <$> xs = (Some <$> take (N.to_nat i) xs) ++ [Some x] ++ (Some <$> drop (S (N.to_nat i)) xs)) as Hsp.
    { change [Some x] with (Some <$> [x]). rewrite <-!fmap_app. f_equal. simpl. by apply take_drop_middle_N. }
    assert (length (Some <$> take (N.to_nat i) xs) = N.to_nat i) as Hla.
    { rewrite fmap_length, take_length. lia. }
    assert (length (Some <$> drop (S (N.to_nat i)) xs) = (length xs - N.to_nat i - 1)%nat) as Hlb.
    { rewrite fmap_length, drop_length. lia. }
    set (A := Some <$> take (N.to_nat i) xs) in *. set (B := Some <$> drop (S (N.to_nat i)) xs) in *.
    assert (copied (sk_slots k) (i + 1) (sk_slots k) i (sk_len k - i) = A ++ B ++ r :: r :: rest) as ->.
    { rewrite (copied_app (A ++ [Some x]) (B ++ [r]) [] rest).
      2: { rewrite Hs, Hsp. by rewrite <-!app_assoc. }
      2: { rewrite app_length. simpl. lia. }
      2: { rewrite app_length. simpl. lia. }
      assert (take (N.to_nat i) (sk_slots k) = A) as ->.
      { rewrite Hs, Hsp, <-app_assoc, <-Hla. by rewrite take_app. }
      assert (drop (N.to_nat i + N.to_nat (sk_len k - i)) (sk_slots k) = r :: rest) as ->.
      { rewrite Hs. replace (_ + _)%nat with (length (Some <$> xs)) by (rewrite fmap_length; lia).
        by rewrite drop_app. }
      by rewrite <-!app_assoc. }
    split_and!; simpl.
    - rewrite app_length, take_length, drop_length. lia.
    - rewrite !app_length. simpl. rewrite Hs, app_length, fmap_length in Hc. simpl in Hc. lia.
    - exists (r :: r :: rest). by rewrite fmap_app, <-app_assoc.
  Qed.
  Lemma sk_remove_full k xs i w :
    skrep k xs -> i < llen xs -> llen xs = Cap ->
    sk_remove Cap i (k, w) = (UB OutOfBounds, (k, w)).
  Proof.
    intros Hr Hi Hf. pose proof Hr as (Hl&Hc&rest&Hs).
    destruct (xs !! N.to_nat i) as [x|] eqn:Hx. 2: { apply lookup_ge_None in Hx. lia. }
    unfold sk_remove, sk_unchecked_remove.
    rewrite bind_get_fst, bind_assert, bind_get_fst, bind_debug_assert by lia.
    erewrite bind_Ret by (by apply sk_read_eq; eapply skrep_lookup).
    rewrite bind_usub by lia. erewrite bind_UB; [done|].
    unfold sk_copy. rewrite sz_pos, orb_false_l. destruct (N.eqb_spec (sk_len k - i) 0); [lia|].
    cbn iota. rewrite bind_get_fst. destruct (N.leb_spec (i + 1 + (sk_len k - i)) (llen (sk_slots k))); [lia|done].
  Qed.
  Lemma sk_remove_bad k xs i w :
    skrep k xs -> llen xs <= i -> sk_remove Cap i (k, w) = (Panic PAssert, (k, w)).
  Proof.
    intros (Hl&_) Hi. unfold sk_remove. rewrite bind_get_fst, bind_assert_false by lia. done.
  Qed.

  (** [truncate] leaves the right elements but destroys none. *)
  Lemma sk_truncate_ok k xs n w :
    skrep k xs ->
    exists k', sk_truncate Cap n (k, w) = (Ret tt, (k', w)) /\ skrep k' (take (N.to_nat n) xs).
  Proof.
    intros Hr. pose proof (skrep_len _ _ Hr) as [Hl Hc]. unfold sk_truncate.
    rewrite bind_get_fst, Hl. destruct (N.ltb_spec n (llen xs)) as [Hn|Hn].
    - erewrite bind_Ret by (apply sk_set_len_eq; lia).
      replace (N.to_nat (n - llen xs)) with 0%nat by lia. eexists. split; [done|].
      apply skrep_take; [done|lia].
    - exists k. split; [done|]. by rewrite take_ge by lia.
  Qed.

  Lemma sk_swap_remove_ok k xs i x w :
    skrep k xs -> xs !! N.to_nat i = Some x -> (e_strict = false \/ i + 1 <> llen xs) ->
    exists l k', last xs = Some l /\ sk_swap_remove Cap i (k, w) = (Ret x, (k', w)) /\
      skrep k' (take (length xs - 1) (<[N.to_nat i := l]> xs)).
  Proof.
    intros Hr Hx Hst. pose proof Hr as (Hl&Hc&rest&Hs). pose proof (lookup_lt_Some _ _ _ Hx) as Hi.
    pose proof (skrep_len _ _ Hr) as [_ Hle].
    assert (exists l, last xs = Some l) as [l Hlast].
    { destruct xs as [|y ys _] using rev_ind; [simpl in Hi; lia|]. rewrite last_snoc. eauto. }
    exists l. unfold sk_swap_remove. rewrite bind_get_fst, bind_assert by lia.
    erewrite bind_Ret by (by apply sk_read_eq; eapply skrep_lookup).
    rewrite bind_usub by lia. rewrite Hl.
    erewrite bind_Ret.
    2: { unfold sk_copy_no. rewrite sz_pos, orb_false_l. change (1 =? 0) with false. cbn iota.
         assert (forall A (m : M (stackvec T * W) A) st,
           (assume ((llen xs - 1 + 1 <=? i) || (i + 1 <=? llen xs - 1)) Overlap ;; m) st = m st) as ->.
         { intros A m st. unfold assume. destruct Hst as [-> | Hst]; [done|].
           replace (_ || _) with true by lia. by rewrite andb_false_r. }
         apply sk_copy_eq; lia. }
    rewrite bind_usub by lia. erewrite bind_Ret by (apply sk_set_len_eq; lia).
    eexists. split_and!; [done|done|]. simpl.
    assert (copied (sk_slots k) (llen xs - 1) (sk_slots k) i 1 = (Some <$> <[N.to_nat i := l]> xs) ++ rest) as ->.
    { unfold copied.
      assert (take (N.to_nat 1) (drop (N.to_nat (llen xs - 1)) (sk_slots k)) = [Some l]) as ->.
      { rewrite Hs. destruct xs as [|y ys _] using rev_ind; [done|]. rewrite last_snoc in Hlast.
        injection Hlast as ->. rewrite app_length, fmap_app. simpl length.
        replace (N.to_nat (N.of_nat (length ys + 1) - 1)) with (length (Some <$> ys)) by (rewrite fmap_length; lia).
        rewrite <-app_assoc, drop_app. done. }
      rewrite list_fmap_insert. rewrite Hs.
      rewrite take_app_le by (rewrite fmap_length; lia).
      rewrite insert_take_drop by (rewrite fmap_length; lia). rewrite <-app_assoc. simpl. f_equal. f_equal.
      rewrite drop_app_le by (rewrite fmap_length; lia). f_equal. f_equal. lia. }
    replace (llen xs - 1) with (llen (<[N.to_nat i := l]> xs) - 1) by (by rewrite insert_length).
    set (ys := <[N.to_nat i := l]> xs).
    assert (length ys = length xs) as Hly by apply insert_length.
    replace (length xs - 1)%nat with (N.to_nat (llen ys - 1)) by lia.
    apply (skrep_take (StackVec ((Some <$> ys) ++ rest) (llen ys))); [|lia].
    split_and!; simpl; [done| |eauto]. rewrite app_length, fmap_length, Hly.
    rewrite Hs, app_length, fmap_length in Hc. lia.
  Qed.
  Lemma sk_swap_remove_last k xs w :
    skrep k xs -> xs <> [] -> e_strict = true ->
    sk_swap_remove Cap (llen xs - 1) (k, w) = (UB Overlap, (k, w)).
  Proof.
    intros Hr Hn Hst. pose proof Hr as (Hl&Hc&rest&Hs).
    assert (0 < llen xs) as Hp by (destruct xs; [done|simpl; lia]).
    destruct (xs !! N.to_nat (llen xs - 1)) as [x|] eqn:Hx. 2: { apply lookup_ge_None in Hx. lia. }
    unfold sk_swap_remove. rewrite bind_get_fst, bind_assert by lia.
    erewrite bind_Ret by (by apply sk_read_eq; eapply skrep_lookup).
    rewrite bind_usub by lia. rewrite Hl. erewrite bind_UB; [done|].
    unfold sk_copy_no. rewrite sz_pos, orb_false_l. change (1 =? 0) with false. cbn iota.
    unfold assume. rewrite Hst. replace (_ || _) with false by lia. done.
  Qed.
  Lemma sk_swap_remove_bad k xs i w :
    skrep k xs -> llen xs <= i -> sk_swap_remove Cap i (k, w) = (Panic PAssert, (k, w)).
  Proof.
    intros (Hl&_) Hi. unfold sk_swap_remove. rewrite bind_get_fst, bind_assert_false by lia. done.
  Qed.

  Lemma sk_assign_rep k xs i x y :
    skrep k xs -> xs !! N.to_nat i = Some y ->
    skrep (StackVec (<[N.to_nat i := Some x]> (sk_slots k)) (sk_len k)) (<[N.to_nat i := x]> xs).
  Proof.
    intros (Hl&Hc&rest&Hs) Hy. pose proof (lookup_lt_Some _ _ _ Hy). split_and!; simpl.
    - by rewrite insert_length.
    - by rewrite insert_length.
    - exists rest. rewrite Hs, list_fmap_insert, insert_app_l; [done|]. by rewrite fmap_length.
  Qed.
End stack.
