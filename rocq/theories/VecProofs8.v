(** Vectors of zero-sized elements; markers. *)
From Verif Require Export VecProofs7.
From Coq Require Import ZifyBool ZifyNat ZifyN.

Section zst.
  Context {EN : Env} {T : Type} {EL : Elem T} (Hz : t_size = 0) (Hu : forall x : T, x = t_zst).
  Notation W := (world T).
  Notation MV := (M (vec * W)).
  Implicit Types (w : W) (v : vec) (xs ys : list T).

  Lemma zeq xs : forall ys, length xs = length ys -> xs = ys.
  Proof.
    induction xs as [|x xs IH]; intros [|y ys] H; simpl in H; try done; try lia.
    rewrite (Hu x), (Hu y). f_equal. apply IH. lia.
  Qed.

  Lemma z_read p i w : read_at p i w = (Ret t_zst, w).
  Proof. unfold read_at. by rewrite Hz. Qed.
  Lemma z_write p i x w : write_at p i x w = (Ret tt, w).
  Proof. unfold write_at. by rewrite Hz. Qed.
  Lemma z_copy p i q j n w : copy_at p i q j n w = (Ret tt, w).
  Proof. unfold copy_at. by rewrite Hz. Qed.
  Lemma z_copy_no p i q j n w : copy_nonoverlapping p i q j n w = (Ret tt, w).
  Proof. unfold copy_nonoverlapping. by rewrite Hz. Qed.
  Lemma z_cap v : vcap v = usize_max.
  Proof. unfold vcap. by rewrite Hz. Qed.

  Definition zrep (v : vec) (xs : list T) : Prop := v_len v = llen xs /\ llen xs <= usize_max.

  Lemma z_set_len n v w : n <= usize_max -> vec_set_len n (v, w) = (Ret tt, (Vec (v_ptr v) n, w)).
  Proof.
    intros Hn. unfold vec_set_len. rewrite bind_get_fst, bind_debug_assert; [done|].
    rewrite z_cap. lia.
  Qed.

  Lemma z_drop_at p i w : no_drop_panic -> drop_at p i w = (Ret tt, add_drop t_zst w).
  Proof.
    intros Hn. unfold drop_at. rewrite Hz. unfold drop_val.
    by rewrite Hn, andb_false_r.
  Qed.
  Lemma z_drop_loop xs : forall p i w, no_drop_panic ->
    drop_loop p i (length xs) w = (Ret tt, add_drops xs w).
  Proof.
    induction xs as [|x xs IH]; intros p i w Hn; simpl; [done|].
    erewrite bind_Ret by (by apply z_drop_at). rewrite IH by done. by rewrite (Hu x).
  Qed.
  Lemma z_drop_slice xs : forall p i w, no_drop_panic ->
    drop_slice p i (length xs) w = (Ret tt, add_drops xs w).
  Proof.
    unfold drop_slice. induction xs as [|x xs IH]; intros p i w Hn; simpl; [done|].
    rewrite z_drop_at by done. rewrite IH by done. by rewrite (Hu x).
  Qed.
  Lemma z_read_list xs : forall p i w, read_list p i (length xs) w = (Ret xs, w).
  Proof.
    induction xs as [|x xs IH]; intros p i w; simpl; [done|].
    erewrite bind_Ret by apply z_read. erewrite bind_Ret by apply IH. by rewrite (Hu x).
  Qed.

  Lemma z_try_reserve_exact n v w xs :
    zrep v xs -> llen xs + n <= usize_max -> vec_try_reserve_exact n (v, w) = (Ret (Ok tt), (v, w)).
  Proof.
    intros [Hl _] Hn. unfold vec_try_reserve_exact. rewrite bind_get_fst, Hl.
    rewrite guarded_add_ok by done. rewrite z_cap. destruct (N.ltb_spec usize_max (llen xs + n)); [lia|done].
  Qed.
  Lemma z_reserve_exact n v w xs :
    zrep v xs -> llen xs + n <= usize_max -> vec_reserve_exact n (v, w) = (Ret tt, (v, w)).
  Proof.
    intros Hr Hn. unfold vec_reserve_exact. by erewrite bind_Ret by (by eapply z_try_reserve_exact).
  Qed.
  Lemma z_try_reserve n v w xs :
    zrep v xs -> llen xs + n <= usize_max -> vec_try_reserve n (v, w) = (Ret (Ok tt), (v, w)).
  Proof.
    intros [Hl _] Hn. unfold vec_try_reserve. rewrite bind_get_fst, Hl.
    rewrite guarded_add_ok by done. rewrite z_cap. destruct (N.ltb_spec usize_max (llen xs + n)); [lia|done].
  Qed.

  Lemma z_push x v w xs :
    zrep v xs -> llen xs + 1 <= usize_max ->
    exists v', vec_push x (v, w) = (Ret tt, (v', w)) /\ zrep v' (xs ++ [x]).
  Proof.
    intros Hr Hn. unfold vec_push.
    erewrite bind_Ret by (apply on_unwind_Ret; by eapply z_reserve_exact).
    rewrite bind_get_fst. erewrite bind_on_snd_Ret by apply z_write.
    rewrite (proj1 Hr), bind_uadd by done. eexists. split; [by apply z_set_len|].
    split; simpl; rewrite app_length; simpl; lia.
  Qed.

  Lemma z_push_all it : forall v w xs,
    zrep v xs -> llen xs + llen it <= usize_max ->
    exists ys v' r, vec_push_all it (v, w) = (r, (v', w)) /\ zrep v' (xs ++ ys) /\
      ((r = Ret tt /\ it = Some <$> ys) \/
       (r = Panic PUser /\ exists it', it = (Some <$> ys) ++ None :: it')).
  Proof.
    induction it as [|[x|] it IH]; intros v w xs Hr Hn; simpl in Hn |- *.
    - exists [], v, (Ret tt). rewrite app_nil_r. split_and!; try done. by left.
    - destruct (z_push x v w xs Hr) as (v1&He&Hr1); [lia|]. erewrite bind_Ret by exact He.
      destruct (IH v1 w _ Hr1) as (ys&v2&r&He2&Hr2&Hc); [rewrite app_length; simpl; lia|].
      exists (x :: ys), v2, r. rewrite <-app_assoc in Hr2. split_and!; try done.
      destruct Hc as [[-> ->]|[-> [it' ->]]]; [left; done|right]. split; [done|]. by exists it'.
    - exists [], v, (Panic PUser). rewrite app_nil_r. split_and!; try done. right.
      split; [done|]. by exists it.
  Qed.

  Lemma z_push_clones l : forall v w xs,
    zrep v xs -> llen xs + llen l <= usize_max ->
    exists ys v' r, vec_push_clones l (v, w) = (r, (v', w)) /\ zrep v' (xs ++ ys) /\
      ((r = Ret tt /\ Forall2 (fun x y => t_clone x = Some y) l ys) \/
       (r = Panic PUser /\ exists l1 x l2, l = l1 ++ x :: l2 /\
          Forall2 (fun x y => t_clone x = Some y) l1 ys /\ t_clone x = None)).
  Proof.
    induction l as [|x l IH]; intros v w xs Hr Hn; simpl in Hn |- *.
    - exists [], v, (Ret tt). rewrite app_nil_r. split_and!; try done. by left.
    - destruct (t_clone x) as [y|] eqn:Ec.
      + erewrite (bind_on_snd_Ret (clone_val x)) by (unfold clone_val; rewrite Ec; reflexivity).
        destruct (z_push y v w xs Hr) as (v1&He&Hr1); [lia|]. erewrite bind_Ret by exact He.
        destruct (IH v1 w _ Hr1) as (ys&v2&r&He2&Hr2&Hc); [rewrite app_length; simpl; lia|].
        exists (y :: ys), v2, r. rewrite <-app_assoc in Hr2. split_and!; try done.
        destruct Hc as [[-> ?]|[-> (l1&z&l2&->&?&?)]]; [left; split; [done|by constructor]|right].
        split; [done|]. exists (x :: l1), z, l2. split_and!; try done. by constructor.
      + erewrite (bind_Panic (on_snd (clone_val x))).
        2: { apply on_snd_Ret. unfold clone_val. by rewrite Ec. }
        exists [], v, (Panic PUser). rewrite app_nil_r. split_and!; try done. right.
        split; [done|]. by exists [], x, l.
  Qed.

  Lemma z_push_next (next : nat -> MV T) (h : nat -> option T) n : forall k v w xs,
    (forall k st, next k st = (match h k with Some x => Ret x | None => Panic PUser end, st)) ->
    zrep v xs -> llen xs + N.of_nat n <= usize_max ->
    exists v', push_next next k n (v, w) =
        ((if snd (produce h k n) then Ret tt else Panic PUser), (v', w)) /\
      zrep v' (xs ++ fst (produce h k n)).
  Proof.
    induction n as [|n IH]; intros k v w xs Hh Hr Hn; simpl.
    - exists v. by rewrite app_nil_r.
    - destruct (h k) as [x|] eqn:Eh.
      + erewrite bind_Ret by (rewrite Hh, Eh; reflexivity).
        destruct (z_push x v w xs Hr) as (v1&He&Hr1); [lia|]. simpl. erewrite bind_Ret by exact He.
        destruct (IH (S k) v1 w _ Hh Hr1) as (v2&He2&Hr2); [rewrite app_length; simpl; lia|].
        rewrite He2. exists v2. destruct (produce h (S k) n) as [l b]. simpl in *.
        rewrite <-app_assoc in Hr2. done.
      + erewrite bind_Panic by (rewrite Hh, Eh; reflexivity). exists v. by rewrite app_nil_r.
  Qed.

  Lemma z_truncate n v w xs :
    zrep v xs -> no_drop_panic ->
    exists v' w', vec_truncate n (v, w) = (Ret tt, (v', w')) /\ zrep v' (take (N.to_nat n) xs) /\
      w' = add_drops (drop (N.to_nat n) xs) w.
  Proof.
    intros [Hl Hb] Hn. unfold vec_truncate. rewrite bind_get_fst, Hl.
    destruct (N.ltb_spec (llen xs) n).
    - exists v, w. rewrite take_ge, drop_ge by lia. split_and!; try done.
    - rewrite bind_usub by lia. erewrite bind_Ret by (apply z_set_len; lia).
      eexists _, _. split_and!; [| |reflexivity].
      + apply on_snd_Ret. rewrite <-z_drop_slice with (p := vdata v) (i := n) by done.
        rewrite drop_length. f_equal. lia.
      + split; simpl; rewrite take_length; lia.
  Qed.

  (** The effect of a call: only destructors run, no memory and no allocator is involved. *)
  Definition zafter (w w' : W) (ds : list T) : Prop :=
    heap w' = heap w /\ drops w' = drops w ++ ds /\ next_id w' = next_id w /\
    ncalls w' = ncalls w /\ events w' = events w.
  Lemma zafter_refl w : zafter w w [].
  Proof. unfold zafter. by rewrite app_nil_r. Qed.
  Lemma zafter_drops w l : zafter w (add_drops l w) l.
  Proof.
    unfold zafter.
    by rewrite heap_add_drops, drops_add_drops, next_add_drops, ncalls_add_drops, events_add_drops.
  Qed.
  Lemma zafter_trans w w1 w2 a b : zafter w w1 a -> zafter w1 w2 b -> zafter w w2 (a ++ b).
  Proof.
    intros (?&?&?&?&?) (?&?&?&?&?). split_and!; try congruence. rewrite app_assoc. congruence.
  Qed.

  Lemma bind_ext {S A B} (m m' : M S A) (k : A -> M S B) s :
    m s = m' s -> bind m k s = bind m' k s.
  Proof. intros H. unfold bind. by rewrite H. Qed.

  Lemma z_do_resize_grow (next last : nat -> MV T) (cl : MV unit) n v w xs :
    zrep v xs -> llen xs < n -> n <= usize_max ->
    do_resize next last cl n (v, w) =
      (k <- on_unwind (push_next next 0 (N.to_nat (n - llen xs - 1)) ;;
                       ret (N.to_nat (n - llen xs - 1))) cl;
       x <- last k; vec_push x) (v, w).
  Proof.
    intros Hr Hlt Hn. pose proof Hr as [Hl Hb]. unfold do_resize, vx_get_len.
    rewrite bind_assoc, bind_get_fst, bind_ret. change (vx_len v) with (v_len v). rewrite Hl.
    destruct (N.leb_spec n (llen xs)); [lia|]. rewrite bind_usub by lia.
    unfold bind at 1 4. f_equal. unfold on_unwind.
    erewrite bind_Ret by (eapply z_reserve_exact; [done|lia]).
    rewrite bind_usub by lia. done.
  Qed.

  (** All calls but [append] (which drops a second vector) follow the list specification. *)
  Definition z_call (op : vop T) : Prop := match op with OAppend _ => False | _ => True end.

  Lemma z_step op v w xs :
    zrep v xs -> z_call op -> llen xs + demand op <= usize_max -> no_drop_panic ->
    exists o ins v' w' xs' ds, vexec op (v, w) = (o, (v', w')) /\
      vspec False t_clone xs op ins o xs' ds /\ zrep v' xs' /\ zafter w w' ds.
  Proof.
    intros Hr Hcall Hd Hnd. pose proof Hr as [Hl Hb].
    destruct op as [x| |i x|i|i|n| |l|l|it h|n x|n g|n|n|n|n|m| |i|i x|i| | |sc];
      simpl in Hcall, Hd |- *.
    - destruct (z_push x v w xs Hr Hd) as (v'&He&Hr'). erewrite bind_Ret by exact He.
      eexists _, _, v', w, _, _. split_and!; [done|constructor|done|apply zafter_refl].
    - unfold vec_pop. rewrite bind_assoc, bind_get_fst, Hl.
      destruct (N.eqb_spec (llen xs) 0).
      + destruct xs; [|simpl in *; lia]. eexists _, _, v, w, _, _.
        split_and!; [done|constructor|done|apply zafter_refl].
      + destruct xs as [|x xs _] using rev_ind; [done|]. rewrite app_length in *. simpl in *.
        rewrite bind_assoc, bind_usub by lia. rewrite bind_assoc.
        erewrite bind_on_snd_Ret by apply z_read. rewrite bind_assoc.
        erewrite bind_Ret by (apply z_set_len; lia). rewrite bind_ret.
        eexists _, [], _, w, xs, []. split_and!; [reflexivity| | |apply zafter_refl].
        * rewrite <-(Hu x). constructor.
        * split; simpl; lia.
    - unfold vec_insert. rewrite bind_assoc. destruct (N.leb_spec i (llen xs)).
      + erewrite bind_Ret.
        2: { apply on_unwind_Ret. rewrite bind_get_fst, Hl, bind_assert by lia.
             rewrite z_cap. destruct (N.eqb_spec (llen xs) usize_max); [lia|]. reflexivity. }
        rewrite bind_assoc, bind_get_fst, Hl, bind_assoc, bind_uadd by lia.
        rewrite bind_assoc, bind_assume by lia. rewrite bind_assoc, bind_usub by lia.
        rewrite bind_assoc. erewrite bind_on_snd_Ret by apply z_copy.
        rewrite bind_assoc. erewrite bind_on_snd_Ret by apply z_write.
        erewrite bind_Ret by (apply z_set_len; lia).
        eexists _, [x], _, w, (take (N.to_nat i) xs ++ x :: drop (N.to_nat i) xs), [].
        split_and!; [reflexivity| | |apply zafter_refl].
        * rewrite <-(take_drop (N.to_nat i) xs) at 1. constructor. rewrite take_length. lia.
        * split; simpl; rewrite app_length; simpl; rewrite take_length, drop_length; lia.
      + erewrite bind_Panic.
        2: { eapply on_unwind_Panic.
             - rewrite bind_get_fst, Hl, bind_assert_false by lia. reflexivity.
             - apply on_snd_Ret. unfold drop_val. by rewrite Hnd, andb_false_r. }
        eexists _, [x], v, _, xs, [x]. split_and!; [done| |done|apply (zafter_drops w [x])].
        by constructor.
    - unfold vec_remove. rewrite bind_assoc, bind_get_fst, Hl.
      destruct (N.ltb_spec i (llen xs)) as [Hi|Hi].
      + rewrite bind_assoc, bind_assert by done. rewrite bind_assoc.
        erewrite bind_on_snd_Ret by apply z_read.
        rewrite bind_assoc, bind_usub by lia. rewrite bind_assoc, bind_usub by lia.
        rewrite bind_assoc. erewrite bind_on_snd_Ret by apply z_copy.
        rewrite bind_assoc, bind_usub by lia. rewrite bind_assoc.
        erewrite bind_Ret by (apply z_set_len; lia). rewrite bind_ret.
        eexists _, [], _, w, (take (N.to_nat i) xs ++ drop (S (N.to_nat i)) xs), [].
        split_and!; [reflexivity| | |apply zafter_refl].
        * rewrite (zeq xs (take (N.to_nat i) xs ++ t_zst :: drop (S (N.to_nat i)) xs)) at 1.
          { constructor. rewrite take_length. lia. }
          rewrite app_length. simpl. rewrite take_length, drop_length. lia.
        * split; simpl; rewrite app_length, take_length, drop_length; lia.
      + rewrite bind_assoc, bind_assert_false by done.
        eexists _, [], v, w, xs, []. split_and!; [done| |done|apply zafter_refl]. by constructor.
    - unfold vec_swap_remove. rewrite bind_assoc, bind_get_fst, Hl.
      destruct (N.ltb_spec i (llen xs)) as [Hi|Hi].
      2: { rewrite bind_assoc, bind_assert_false by done.
           eexists _, [], v, w, xs, []. split_and!; [done| |done|apply zafter_refl]. by constructor. }
      rewrite bind_assoc, bind_assert by done.
      assert (exists v', (if llen xs =? 1
         then (o <- vec_pop; match o with Some x => ret x | None => throw PUnwrap end)
         else (last <- usub (llen xs) 1; x <- on_snd (read_at (vdata v) i);
           on_snd (copy_nonoverlapping (vdata v) last (vdata v) i 1);; n <- usub (llen xs) 1;
           vec_set_len n;; ret x)) (v, w) = (Ret t_zst, (v', w)) /\ v_len v' = llen xs - 1)
        as (v'&He&Hlen).
      { destruct (N.eqb_spec (llen xs) 1).
        - unfold vec_pop. rewrite bind_assoc, bind_get_fst, Hl.
          destruct (N.eqb_spec (llen xs) 0); [lia|].
          rewrite bind_assoc, bind_usub by lia. rewrite bind_assoc.
          erewrite bind_on_snd_Ret by apply z_read. rewrite bind_assoc.
          erewrite bind_Ret by (apply z_set_len; lia). rewrite bind_ret. eexists. done.
        - rewrite bind_usub by lia. erewrite bind_on_snd_Ret by apply z_read.
          erewrite bind_on_snd_Ret by apply z_copy_no. rewrite bind_usub by lia.
          erewrite bind_Ret by (apply z_set_len; lia). eexists. done. }
      erewrite bind_Ret by exact He.
      destruct xs as [|l xs _] using rev_ind; [simpl in *; lia|].
      rewrite app_length in *. simpl in *.
      eexists _, [], v', w, xs, [].
      split_and!; [reflexivity| | |apply zafter_refl].
      + destruct (decide (i = llen xs)) as [->|].
        * rewrite (Hu l). by constructor.
        * rewrite (zeq (xs ++ [l]) (take (N.to_nat i) xs ++ t_zst :: drop (S (N.to_nat i)) xs ++ [l])).
          2: { rewrite !app_length. simpl. rewrite app_length, take_length, drop_length. simpl. lia. }
          rewrite (zeq xs (take (N.to_nat i) xs ++ l :: drop (S (N.to_nat i)) xs)) at 3.
          2: { rewrite app_length. simpl. rewrite take_length, drop_length. lia. }
          constructor. rewrite take_length. lia.
      + split; simpl; lia.
    - destruct (z_truncate n v w xs Hr Hnd) as (v'&w'&He&Hr'&->). erewrite bind_Ret by exact He.
      eexists _, [], v', _, _, _. split_and!; [done| |done|apply zafter_drops].
      destruct (N.leb_spec (llen xs) n).
      + rewrite take_ge, drop_ge by lia. by constructor.
      + rewrite <-(take_drop (N.to_nat n) xs) at 1. constructor. rewrite take_length. lia.
    - unfold vec_clear. rewrite bind_assoc, bind_get_fst, Hl, Nat2N.id.
      rewrite bind_assoc. erewrite bind_on_snd_Ret by (by apply z_drop_loop).
      erewrite bind_Ret by (apply z_set_len; lia).
      eexists _, [], _, _, [], xs. split_and!; [reflexivity|constructor| |apply zafter_drops].
      split; simpl; lia.
    - done.
    - unfold vec_extend_from_slice. rewrite bind_assoc.
      erewrite bind_Ret by (by eapply z_reserve_exact).
      destruct (z_push_clones l v w xs Hr Hd) as (ys&v'&r&He&Hr'&[[-> Hc]|[-> (l1&x&l2&->&Hc&Hx)]]).
      + erewrite bind_Ret by exact He.
        eexists _, ys, v', w, _, []. split_and!; [done| |done|apply zafter_refl]. by constructor.
      + erewrite bind_Panic by exact He.
        eexists _, ys, v', w, _, []. split_and!; [done| |done|apply zafter_refl]. by constructor.
    - unfold vec_extend_from_iter. rewrite bind_assoc.
      erewrite bind_Ret by (eapply z_reserve_exact; [done|lia]).
      destruct (z_push_all it v w xs Hr) as (ys&v'&r&He&Hr'&[[-> ->]|[-> [it' ->]]]); [lia| |].
      + erewrite bind_Ret by exact He.
        eexists _, ys, v', w, _, []. split_and!; [done| |done|apply zafter_refl]. by constructor.
      + erewrite bind_Panic by exact He.
        eexists _, ys, v', w, _, []. split_and!; [done| |done|apply zafter_refl]. by constructor.
    - unfold resize_val. destruct (N.leb_spec n (llen xs)) as [Hn|Hn].
      + unfold do_resize, vx_get_len. rewrite bind_assoc, bind_assoc, bind_get_fst, bind_ret.
        change (vx_len v) with (v_len v). rewrite Hl. destruct (N.leb_spec n (llen xs)); [|lia].
        destruct (z_truncate n v w xs Hr Hnd) as (v'&w'&He&Hr'&->).
        unfold finally. rewrite bind_assoc. erewrite bind_Ret by (by apply on_unwind_Ret).
        rewrite bind_assoc. erewrite bind_on_snd_Ret.
        2: { unfold drop_val. rewrite Hnd, andb_false_r. reflexivity. }
        rewrite bind_ret. eexists _, [x], v', _, _, _.
        split_and!; [done| |done|].
        * rewrite <-(take_drop (N.to_nat n) xs) at 1. constructor. rewrite take_length. lia.
        * eapply zafter_trans; [apply zafter_drops|]. apply (zafter_drops _ [x]).
      + rewrite (bind_ext _ _ _ _ (z_do_resize_grow _ _ _ n v w xs Hr Hn ltac:(lia))).
        rewrite bind_assoc.
        set (k := N.to_nat (n - llen xs - 1)).
        destruct (z_push_next (fun _ => on_snd (clone_val x)) (fun _ => t_clone x) k 0 v w xs)
          as (v1&He&Hr1); [|done|lia|].
        { intros ? [??]. unfold on_snd, clone_val. simpl. by destruct (t_clone x). }
        destruct (t_clone x) as [y|] eqn:Ec.
        * rewrite produce_const_Some in He, Hr1. simpl in He, Hr1.
          erewrite bind_Ret.
          2: { apply on_unwind_Ret. erewrite bind_Ret by exact He. reflexivity. }
          rewrite bind_assoc, bind_ret.
          destruct (z_push x v1 w _ Hr1) as (v2&He2&Hr2).
          { rewrite app_length, replicate_length. lia. }
          erewrite bind_Ret by exact He2. eexists _, (replicate k y ++ [x]), v2, w, (xs ++ replicate k y ++ [x]), [].
          split_and!; [done| | |apply zafter_refl].
          -- constructor; [rewrite replicate_length; lia|].
             intros z Hz'. apply elem_of_replicate in Hz' as [-> _]. done.
          -- by rewrite app_assoc.
        * rewrite produce_const_None in He, Hr1. simpl in Hr1. rewrite app_nil_r in Hr1.
          destruct k as [|k'] eqn:Ek.
          -- simpl in He. erewrite bind_Ret.
             2: { apply on_unwind_Ret. erewrite bind_Ret by exact He. reflexivity. }
             rewrite bind_assoc, bind_ret.
             destruct (z_push x v1 w _ Hr1) as (v2&He2&Hr2); [lia|].
             erewrite bind_Ret by exact He2. eexists _, ([] ++ [x]), v2, w, (xs ++ [] ++ [x]), [].
             split_and!; [done| | |apply zafter_refl].
             ++ constructor; [simpl; lia|]. intros z Hz'. by apply elem_of_nil in Hz'.
             ++ done.
          -- simpl snd in He. erewrite bind_Panic.
             2: { eapply on_unwind_Panic; [erewrite bind_Panic by exact He; reflexivity|].
                  apply on_snd_Ret. unfold drop_val. by rewrite Hnd, andb_false_r. }
             eexists _, [x], v1, _, xs, [x]. split_and!; [done| |done|apply (zafter_drops w [x])].
             constructor; [lia|done].
    - unfold resize_fn. destruct (N.leb_spec n (llen xs)) as [Hn|Hn].
      + unfold do_resize, vx_get_len. rewrite bind_assoc, bind_assoc, bind_get_fst, bind_ret.
        change (vx_len v) with (v_len v). rewrite Hl. destruct (N.leb_spec n (llen xs)); [|lia].
        destruct (z_truncate n v w xs Hr Hnd) as (v'&w'&He&Hr'&->).
        unfold finally. rewrite bind_assoc. erewrite bind_Ret by (by apply on_unwind_Ret).
        rewrite bind_assoc, bind_ret, bind_ret. eexists _, [], v', _, _, _.
        split_and!; [done| |done|apply zafter_drops].
        rewrite <-(take_drop (N.to_nat n) xs) at 1. constructor. rewrite take_length. lia.
      + rewrite (bind_ext _ _ _ _ (z_do_resize_grow _ _ _ n v w xs Hr Hn ltac:(lia))).
        rewrite bind_assoc.
        set (k := N.to_nat (n - llen xs - 1)).
        destruct (z_push_next (call_fn g) g k 0 v w xs) as (v1&He&Hr1); [|done|lia|].
        { intros j st. unfold call_fn. by destruct (g j). }
        destruct (produce g 0 k) as [ys b] eqn:Ep.
        destruct (produce_spec g k 0 ys b Ep) as (H1&H2&H3). simpl in He, Hr1, H2, H3.
        destruct b.
        * erewrite bind_Ret.
          2: { apply on_unwind_Ret. erewrite bind_Ret by exact He. reflexivity. }
          rewrite bind_assoc. unfold call_fn at 1. destruct (g k) as [x|] eqn:Eg.
          -- rewrite bind_ret. destruct (z_push x v1 w _ Hr1) as (v2&He2&Hr2).
             { rewrite app_length. lia. }
             erewrite bind_Ret by exact He2. eexists _, (ys ++ [x]), v2, w, (xs ++ ys ++ [x]), [].
             split_and!; [done| | |apply zafter_refl].
             ++ constructor.
                ** rewrite app_length. simpl. lia.
                ** intros j Hj. rewrite app_length in Hj. simpl in Hj.
                   destruct (decide (j = length ys)) as [->|].
                   --- rewrite list_lookup_middle by done. by rewrite H3.
                   --- rewrite lookup_app_l by lia. apply H2. lia.
             ++ by rewrite app_assoc.
          -- rewrite bind_throw. eexists _, ys, v1, w, (xs ++ ys), [].
             split_and!; [done| |done|apply zafter_refl].
             constructor; [lia|done|]. by rewrite H3.
        * destruct H3 as [H3 H4]. erewrite bind_Panic.
          2: { eapply on_unwind_Panic; [erewrite bind_Panic by exact He; reflexivity|done]. }
          eexists _, ys, v1, w, (xs ++ ys), [].
          split_and!; [done| |done|apply zafter_refl]. constructor; [lia|done|done].
    - unfold vec_reserve. rewrite bind_assoc. erewrite bind_Ret by (by eapply z_try_reserve).
      eexists _, [], v, w, xs, []. split_and!; [done|constructor|done|apply zafter_refl].
    - erewrite bind_Ret by (by eapply z_reserve_exact).
      eexists _, [], v, w, xs, []. split_and!; [done|constructor|done|apply zafter_refl].
    - erewrite bind_Ret by (by eapply z_try_reserve).
      eexists _, [], v, w, xs, []. split_and!; [done|constructor|done|apply zafter_refl].
    - erewrite bind_Ret by (by eapply z_try_reserve_exact).
      eexists _, [], v, w, xs, []. split_and!; [done|constructor|done|apply zafter_refl].
    - unfold vec_shrink_to. rewrite bind_assoc, bind_get_fst, Hl, z_cap.
      eexists _, [], v, w, xs, []. split_and!; [|apply s_shrink_to|done|apply zafter_refl].
      destruct (N.ltb_spec (N.max (llen xs) m) usize_max); [|done].
      unfold vec_shrink. rewrite bind_assoc, bind_assoc, bind_get_fst, z_cap, Hl.
      rewrite bind_assoc, bind_debug_assert by lia. rewrite bind_assoc, bind_debug_assert by lia.
      by rewrite Hz.
    - unfold vec_shrink_to_fit. rewrite bind_assoc, bind_get_fst, Hl, z_cap.
      eexists _, [], v, w, xs, []. split_and!; [|apply s_shrink_to_fit|done|apply zafter_refl].
      destruct (N.ltb_spec (llen xs) usize_max); [|done].
      unfold vec_shrink. rewrite bind_assoc, bind_assoc, bind_get_fst, z_cap, Hl.
      rewrite bind_assoc, bind_debug_assert by lia. rewrite bind_assoc, bind_debug_assert by lia.
      by rewrite Hz.
    - unfold vec_index. rewrite bind_assoc, bind_get_fst, Hl.
      destruct (N.ltb_spec i (llen xs)).
      + erewrite bind_on_snd_Ret by apply z_read.
        eexists _, [], v, w, xs, []. split_and!; [done| |done|apply zafter_refl].
        constructor. destruct (lookup_lt_is_Some_2 xs (N.to_nat i)) as [y Hy]; [lia|].
        by rewrite Hy, (Hu y).
      + rewrite bind_throw. eexists _, [], v, w, xs, [].
        split_and!; [done|by constructor|done|apply zafter_refl].
    - unfold vec_assign. rewrite bind_assoc, bind_get_fst, Hl.
      destruct (N.ltb_spec i (llen xs)).
      + rewrite bind_assoc. erewrite bind_on_snd_Ret by apply z_read. rewrite bind_assoc.
        erewrite bind_on_snd_Ret by apply z_write.
        erewrite bind_on_snd_Ret by (unfold drop_val; rewrite Hnd, andb_false_r; reflexivity).
        eexists _, [x], v, _, (take (N.to_nat i) xs ++ x :: drop (S (N.to_nat i)) xs), [t_zst].
        split_and!; [done| | |apply (zafter_drops w [t_zst])].
        * rewrite (zeq xs (take (N.to_nat i) xs ++ t_zst :: drop (S (N.to_nat i)) xs)) at 1.
          { constructor. rewrite take_length. lia. }
          rewrite app_length. simpl. rewrite take_length, drop_length. lia.
        * split; simpl; rewrite app_length; simpl; rewrite take_length, drop_length; lia.
      + erewrite bind_Panic.
        2: { eapply on_unwind_Panic; [reflexivity|].
             apply on_snd_Ret. unfold drop_val. by rewrite Hnd, andb_false_r. }
        eexists _, [x], v, _, xs, [x].
        split_and!; [done|by constructor|done|apply (zafter_drops w [x])].
    - unfold vec_get. rewrite bind_assoc, bind_get_fst, Hl.
      destruct (N.ltb_spec i (llen xs)).
      + rewrite bind_assoc. erewrite bind_on_snd_Ret by apply z_read. rewrite bind_ret.
        destruct (lookup_lt_is_Some_2 xs (N.to_nat i)) as [y Hy]; [lia|].
        eexists _, [], v, w, xs, []. split_and!; [done| |done|apply zafter_refl].
        rewrite <-(Hu y), <-Hy. constructor.
      + rewrite bind_ret. eexists _, [], v, w, xs, [].
        split_and!; [done| |done|apply zafter_refl].
        rewrite <-(lookup_ge_None_2 xs (N.to_nat i)) by lia. constructor.
    - rewrite bind_get_fst. unfold vec_as_slice. rewrite Hl, Nat2N.id.
      erewrite bind_on_snd_Ret by apply z_read_list.
      eexists _, [], v, w, xs, []. split_and!; [done|constructor|done|apply zafter_refl].
    - rewrite bind_get_fst, Hl.
      eexists _, [], v, w, xs, []. split_and!; [done|constructor|done|apply zafter_refl].
    - eexists _, [], v, _, xs, []. split_and!; [done|constructor|done|].
      unfold zafter. simpl. by rewrite app_nil_r.
  Qed.

  Lemma z_run ops : forall v w xs,
    zrep v xs -> Forall z_call ops -> llen xs + total_demand ops <= usize_max -> no_drop_panic ->
    exists outs ins v' w' xs' ds, vrun ops (v, w) = (outs, (v', w')) /\
      vtrace False t_clone xs ops ins outs xs' ds /\ zrep v' xs' /\ zafter w w' ds.
  Proof.
    induction ops as [|op ops IH]; intros v w xs Hr Hc Hd Hn.
    - exists [], [], v, w, xs, []. split_and!; [done|constructor|done|apply zafter_refl].
    - inversion_clear Hc as [|?? H1 H2]. simpl in Hd.
      destruct (z_step op v w xs Hr H1) as (o&i1&v1&w1&xs1&d1&He&Hs&Hr1&Ha1); [lia|done|].
      assert (llen xs1 <= llen xs + demand op) as Hlen.
      { destruct Hs; simpl in *; rewrite ?app_length, ?fmap_length in *; simpl in *;
          rewrite ?app_length in *; simpl in *; try lia.
        match goal with H : Forall2 _ _ _ |- _ => apply Forall2_length in H end. lia.
        match goal with H : Forall2 _ _ _ |- _ => apply Forall2_length in H end. lia. }
      destruct (IH v1 w1 xs1 Hr1 H2) as (outs&i2&v2&w2&xs2&d2&He2&Ht&Hr2&Ha2); [lia|done|].
      exists (o :: outs), (i1 ++ i2), v2, w2, xs2, (d1 ++ d2). split_and!; try done.
      + simpl. rewrite He, He2.
        assert ((exists a, o = Ret a) \/ exists p, o = Panic p) as [[? ->]|[? ->]].
        { destruct Hs; eauto. }
        all: done.
      + by econstructor.
      + by eapply zafter_trans.
  Qed.

  (** Dropping such a vector releases a dangling pointer. *)
  Lemma z_drop v w :
    no_drop_panic -> vdata v = Dangling -> fst (vec_drop_val v w) = UB Dangling_access.
  Proof.
    intros Hn Hv. unfold vec_drop_val, vec_drop. rewrite bind_get_fst, z_cap. simpl.
    assert (drop_loop (vdata v) 0 (N.to_nat (v_len v)) w =
            (Ret tt, add_drops (replicate (N.to_nat (v_len v)) t_zst) w)) as He.
    { rewrite <-z_drop_loop with (p := vdata v) (i := 0) by done. by rewrite replicate_length. }
    erewrite bind_on_snd_Ret by exact He. unfold on_snd, sp_dealloc, ga_dealloc. simpl.
    unfold vdata in Hv. by rewrite Hv.
  Qed.
End zst.
