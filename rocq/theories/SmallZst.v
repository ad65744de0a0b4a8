(** [SmallVec] of zero-sized elements. *)
From Verif Require Export SmallRun VecProofs8.
From Coq Require Import ZifyBool ZifyNat ZifyN.

Section szst.
  Context {EN : Env} {T : Type} {EL : Elem T} (Cap : N) (Hz : t_size = 0) (Hu : forall x : T, x = t_zst).
  Notation W := (world T).
  Notation MS := (M (svec T * W)).
  Implicit Types (w : W) (s : svec T) (k : stackvec T) (xs ys : list T).

  Lemma sz_read i k w : sk_read i (k, w) = (Ret t_zst, (k, w)).
  Proof. unfold sk_read. by rewrite Hz. Qed.
  Lemma sz_write i x k w : sk_write i x (k, w) = (Ret tt, (k, w)).
  Proof. unfold sk_write. by rewrite Hz. Qed.
  Lemma sz_copy i j n k w : sk_copy i j n (k, w) = (Ret tt, (k, w)).
  Proof. unfold sk_copy. by rewrite Hz. Qed.
  Lemma sz_copy_no i j n k w : sk_copy_no i j n (k, w) = (Ret tt, (k, w)).
  Proof. unfold sk_copy_no. by rewrite Hz. Qed.
  Lemma sz_set_len n k w : n <= Cap -> sk_set_len Cap n (k, w) = (Ret tt, (StackVec (sk_slots k) n, w)).
  Proof. intros Hn. unfold sk_set_len. rewrite bind_get_fst, bind_debug_assert; [done|]. lia. Qed.
  Lemma sz_drop_val x w : no_drop_panic -> drop_val x w = (Ret tt, add_drop x w).
  Proof. intros Hn. unfold drop_val. by rewrite Hn, andb_false_r. Qed.
  Lemma sz_drop_range xs : forall k i w, no_drop_panic ->
    sk_drop_range i (length xs) (k, w) = (Ret tt, (k, add_drops xs w)).
  Proof.
    induction xs as [|x xs IH]; intros k i w Hn; simpl; [done|].
    unfold sk_drop_at at 1. rewrite Hz. simpl.
    erewrite bind_on_snd_Ret by (by apply sz_drop_val). rewrite IH by done. by rewrite (Hu x).
  Qed.
  Lemma sz_read_list xs : forall k i w, sk_read_list i (length xs) (k, w) = (Ret xs, (k, w)).
  Proof.
    induction xs as [|x xs IH]; intros k i w; simpl; [done|].
    erewrite bind_Ret by apply sz_read. erewrite bind_Ret by apply IH. by rewrite (Hu x).
  Qed.

  (** Contents held inline. *)
  Definition szrep s xs : Prop :=
    exists k m, s = SVec (Stack k) m /\ sk_len k = llen xs /\ llen xs <= Cap.
  Lemma szrep_new : szrep (sv_new Cap) [].
  Proof. eexists _, _. split; [reflexivity|]. simpl. lia. Qed.
  Lemma szrep_len s xs : szrep s xs -> sv_len s = llen xs.
  Proof. intros (k&m&->&H&_). done. Qed.

  Lemma sz_min : min_non_zero_cap = 4.
  Proof. unfold min_non_zero_cap. by rewrite Hz. Qed.

  Lemma sz_try_reserve_exact n s w xs :
    szrep s xs -> llen xs + n <= Cap -> Cap <= usize_max ->
    sv_try_reserve_exact Cap n (s, w) = (Ret (Ok tt), (s, w)).
  Proof.
    intros (k&m&->&Hl&Hc) Hn Hb. unfold sv_try_reserve_exact. rewrite bind_get_fst. simpl.
    rewrite Hl, guarded_add_ok by lia. by rewrite (proj2 (N.ltb_ge _ _)) by lia.
  Qed.
  Lemma sz_try_reserve n s w xs :
    szrep s xs -> 4 <= Cap -> llen xs + n <= Cap -> Cap + n <= usize_max ->
    sv_try_reserve Cap n (s, w) = (Ret (Ok tt), (s, w)).
  Proof.
    intros Hr H4 Hn Hb. unfold sv_try_reserve. rewrite bind_get_fst.
    assert (sv_capacity Cap s = Cap) as -> by (by destruct Hr as (k&m&->&_)).
    rewrite guarded_add_ok by lia. rewrite sz_min, bind_usub by lia.
    replace (N.max 4 (Cap + n) - Cap) with n by lia. eapply sz_try_reserve_exact; [done|lia|lia].
  Qed.
  Lemma sz_reserve n s w xs :
    szrep s xs -> 4 <= Cap -> llen xs + n <= Cap -> Cap + n <= usize_max ->
    sv_reserve Cap n (s, w) = (Ret tt, (s, w)).
  Proof.
    intros. unfold sv_reserve. by erewrite bind_Ret by (by eapply sz_try_reserve).
  Qed.

  Lemma sz_push x s w xs :
    szrep s xs -> 4 <= Cap -> llen xs + 1 <= Cap -> Cap + 1 <= usize_max ->
    exists s', sv_push Cap x (s, w) = (Ret tt, (s', w)) /\ szrep s' (xs ++ [x]).
  Proof.
    intros Hr H4 Hn Hb. unfold sv_push.
    erewrite bind_Ret by (apply on_unwind_Ret; by eapply sz_reserve).
    destruct Hr as (k&m&->&Hl&Hc). eexists. split.
    - apply redirect_stack. unfold sk_unchecked_push.
      erewrite bind_Ret.
      2: { apply on_unwind_Ret. rewrite bind_get_fst. unfold sk_is_full, assert. rewrite Hl.
           rewrite (proj2 (N.eqb_neq _ _)) by lia. reflexivity. }
      rewrite bind_get_fst. erewrite bind_Ret by apply sz_write.
      rewrite Hl, bind_uadd by lia. apply sz_set_len. lia.
    - eexists _, _. split; [reflexivity|]. simpl. rewrite app_length. simpl. lia.
  Qed.
  Lemma sz_push_all it : forall s w xs,
    szrep s xs -> 4 <= Cap -> llen xs + llen it <= Cap -> Cap + 1 <= usize_max ->
    exists ys s' r, sv_push_all Cap it (s, w) = (r, (s', w)) /\ szrep s' (xs ++ ys) /\
      ((r = Ret tt /\ it = Some <$> ys) \/
       (r = Panic PUser /\ exists it', it = (Some <$> ys) ++ None :: it')).
  Proof.
    induction it as [|[x|] it IH]; intros s w xs Hr H4 Hn Hb; simpl in Hn |- *.
    - exists [], s, (Ret tt). rewrite app_nil_r. split_and!; try done. by left.
    - destruct (sz_push x s w xs Hr) as (v1&He&Hr1); [lia..|]. erewrite bind_Ret by exact He.
      destruct (IH v1 w _ Hr1) as (ys&v2&r&He2&Hr2&Hc); [lia|rewrite app_length; simpl; lia|lia|].
      exists (x :: ys), v2, r. rewrite <-app_assoc in Hr2. split_and!; try done.
      destruct Hc as [[-> ->]|[-> [it' ->]]]; [left; done|right]. split; [done|]. by exists it'.
    - exists [], s, (Panic PUser). rewrite app_nil_r. split_and!; try done. right.
      split; [done|]. by exists it.
  Qed.
  Lemma sz_push_clones l : forall s w xs,
    szrep s xs -> 4 <= Cap -> llen xs + llen l <= Cap -> Cap + 1 <= usize_max ->
    exists ys s' r, sv_push_clones Cap l (s, w) = (r, (s', w)) /\ szrep s' (xs ++ ys) /\
      ((r = Ret tt /\ Forall2 (fun x y => t_clone x = Some y) l ys) \/
       (r = Panic PUser /\ exists l1 x l2, l = l1 ++ x :: l2 /\
          Forall2 (fun x y => t_clone x = Some y) l1 ys /\ t_clone x = None)).
  Proof.
    induction l as [|x l IH]; intros s w xs Hr H4 Hn Hb; simpl in Hn |- *.
    - exists [], s, (Ret tt). rewrite app_nil_r. split_and!; try done. by left.
    - destruct (t_clone x) as [y|] eqn:Ec.
      + erewrite (bind_on_snd_Ret (clone_val x)) by (unfold clone_val; rewrite Ec; reflexivity).
        destruct (sz_push y s w xs Hr) as (v1&He&Hr1); [lia..|]. erewrite bind_Ret by exact He.
        destruct (IH v1 w _ Hr1) as (ys&v2&r&He2&Hr2&Hc); [lia|rewrite app_length; simpl; lia|lia|].
        exists (y :: ys), v2, r. rewrite <-app_assoc in Hr2. split_and!; try done.
        destruct Hc as [[-> ?]|[-> (l1&z&l2&->&?&?)]]; [left; split; [done|by constructor]|right].
        split; [done|]. exists (x :: l1), z, l2. split_and!; try done. by constructor.
      + erewrite (bind_Panic (on_snd (clone_val x))).
        2: { apply on_snd_Ret. unfold clone_val. by rewrite Ec. }
        exists [], s, (Panic PUser). rewrite app_nil_r. split_and!; try done. right.
        split; [done|]. by exists [], x, l.
  Qed.

  Lemma sz_drop s w xs : szrep s xs -> no_drop_panic -> sv_drop_val s w = (Ret tt, add_drops xs w).
  Proof.
    intros (k&m&->&Hl&_) Hn. unfold sv_drop_val, sv_drop, redirect. rewrite bind_get_fst. simpl.
    unfold on_stack. simpl. unfold sk_drop. rewrite bind_get_fst, Hl, Nat2N.id.
    by rewrite sz_drop_range by done.
  Qed.
  Lemma sz_slice s w xs : szrep s xs -> sv_as_slice (s, w) = (Ret xs, (s, w)).
  Proof.
    intros (k&m&->&Hl&_). unfold sv_as_slice. apply redirect_stack. unfold sk_as_slice.
    rewrite bind_get_fst, Hl, Nat2N.id. apply sz_read_list.
  Qed.
  Lemma sz_sv_read i s w xs : szrep s xs -> sv_read i (s, w) = (Ret t_zst, (s, w)).
  Proof. intros (k&m&->&Hl&_). apply redirect_stack. apply sz_read. Qed.
  Lemma sz_sv_write i x s w xs : szrep s xs -> sv_write i x (s, w) = (Ret tt, (s, w)).
  Proof. intros (k&m&->&Hl&_). apply redirect_stack. apply sz_write. Qed.
  Lemma sz_sv_set_len n s w xs ys : szrep s xs -> llen ys = n -> n <= Cap ->
    exists s', sv_set_len Cap n (s, w) = (Ret tt, (s', w)) /\ szrep s' ys.
  Proof.
    intros (k&m&->&Hl&_) Hy Hn. eexists. split.
    - apply redirect_stack. by apply sz_set_len.
    - eexists _, _. split; [reflexivity|]. simpl. lia.
  Qed.

  (** The calls considered: no insertion and no move to the heap. *)
  Definition sz_call (op : sop T) : Prop :=
    match op with SInsert _ _ | SMoveToHeap => False | _ => True end.

  Lemma sz_step op s w xs :
    szrep s xs -> sz_call op -> 4 <= Cap -> llen xs + sdemand op <= Cap ->
    Cap + N.max 1 (sdemand op) <= usize_max -> no_drop_panic ->
    exists o ins s' w' xs' ds ls, sexec Cap op (s, w) = (o, (s', w')) /\
      sspec False t_clone true xs op ins o xs' ds ls /\ szrep s' xs' /\ zafter w w' ds.
  Proof.
    intros Hr Hcall H4 Hd Hb Hnd. pose proof (szrep_len _ _ Hr) as Hsl.
    pose proof Hr as (k&m&Es&Hl&Hc).
    destruct op as [x| |i x|i|i|n| |l|l|it h|n|n|n|n|mm| | | |i|i x|i| | |sc];
      simpl in Hcall, Hd, Hb |- *; try done.
    - destruct (sz_push x s w xs Hr) as (s'&He&Hr'); [lia..|]. erewrite bind_Ret by exact He.
      eexists _, _, s', w, _, _, _. split_and!; [done|constructor|done|apply zafter_refl].
    - subst s. unfold sv_pop. destruct xs as [|x xs _] using rev_ind.
      + erewrite bind_Ret.
        2: { apply redirect_stack. unfold sk_pop. rewrite bind_get_fst, Hl. reflexivity. }
        eexists _, _, _, w, _, _, _. split_and!; [done|constructor|done|apply zafter_refl].
      + rewrite app_length in *. simpl in Hl, Hc.
        erewrite bind_Ret.
        2: { apply redirect_stack. unfold sk_pop. rewrite bind_get_fst, Hl.
             rewrite (proj2 (N.eqb_neq _ _)) by lia. rewrite bind_usub by lia.
             erewrite bind_Ret by apply sz_read.
             erewrite bind_Ret by (apply sz_set_len; lia). reflexivity. }
        eexists _, _, _, w, xs, _, _. split_and!; [done| | |apply zafter_refl].
        * rewrite <-(Hu x). constructor.
        * eexists _, _. split; [reflexivity|]. simpl. lia.
    - subst s. unfold sv_remove. destruct (N.ltb_spec i (llen xs)) as [Hi|Hi].
      + erewrite bind_Ret.
        2: { apply redirect_stack. unfold sk_remove. rewrite bind_get_fst, Hl, bind_assert by lia.
             unfold sk_unchecked_remove. rewrite bind_get_fst, Hl, bind_debug_assert by lia.
             erewrite bind_Ret by apply sz_read. rewrite bind_usub by lia.
             erewrite bind_Ret by apply sz_copy. rewrite bind_usub by lia.
             erewrite bind_Ret by (apply sz_set_len; lia). reflexivity. }
        eexists _, [], _, w, (take (N.to_nat i) xs ++ drop (S (N.to_nat i)) xs), [], [].
        split_and!; [done| | |apply zafter_refl].
        * rewrite (zeq Hz Hu xs (take (N.to_nat i) xs ++ t_zst :: drop (S (N.to_nat i)) xs)) at 1.
          { constructor. rewrite take_length. lia. }
          rewrite app_length. simpl. rewrite take_length, drop_length. lia.
        * eexists _, _. split; [reflexivity|]. simpl. rewrite app_length, take_length, drop_length. lia.
      + erewrite bind_Panic.
        2: { apply redirect_stack. unfold sk_remove. rewrite bind_get_fst, Hl, bind_assert_false by lia.
             reflexivity. }
        eexists _, [], _, w, xs, [], []. split_and!; [done|by constructor|done|apply zafter_refl].
    - subst s. unfold sv_swap_remove. destruct (N.ltb_spec i (llen xs)) as [Hi|Hi].
      + erewrite bind_Ret.
        2: { apply redirect_stack. unfold sk_swap_remove. rewrite bind_get_fst, Hl, bind_assert by lia.
             erewrite bind_Ret by apply sz_read. rewrite bind_usub by lia.
             erewrite bind_Ret by apply sz_copy_no. rewrite bind_usub by lia.
             erewrite bind_Ret by (apply sz_set_len; lia). reflexivity. }
        destruct xs as [|l xs _] using rev_ind; [simpl in *; lia|].
        rewrite app_length in *. simpl in *.
        eexists _, [], _, w, xs, [], []. split_and!; [done| | |apply zafter_refl].
        * destruct (decide (i = llen xs)) as [->|].
          -- rewrite (Hu l). by constructor.
          -- rewrite (zeq Hz Hu (xs ++ [l]) (take (N.to_nat i) xs ++ t_zst :: drop (S (N.to_nat i)) xs ++ [l])).
             2: { rewrite !app_length. simpl. rewrite app_length, take_length, drop_length. simpl. lia. }
             rewrite (zeq Hz Hu xs (take (N.to_nat i) xs ++ l :: drop (S (N.to_nat i)) xs)) at 3.
             2: { rewrite app_length. simpl. rewrite take_length, drop_length. lia. }
             constructor. rewrite take_length. lia.
        * eexists _, _. split; [reflexivity|]. simpl. lia.
      + erewrite bind_Panic.
        2: { apply redirect_stack. unfold sk_swap_remove.
             rewrite bind_get_fst, Hl, bind_assert_false by lia. reflexivity. }
        eexists _, [], _, w, xs, [], []. split_and!; [done|by constructor|done|apply zafter_refl].
    - subst s. unfold sv_truncate. destruct (N.ltb_spec n (llen xs)) as [Hi|Hi].
      + erewrite bind_Ret.
        2: { apply redirect_stack. unfold sk_truncate. rewrite bind_get_fst, Hl.
             rewrite (proj2 (N.ltb_lt _ _)) by lia.
             erewrite bind_Ret by (apply sz_set_len; lia).
             replace (N.to_nat (n - llen xs)) with 0%nat by lia. reflexivity. }
        eexists _, [], _, w, (take (N.to_nat n) xs), [], (drop (N.to_nat n) xs).
        split_and!; [done| | |apply zafter_refl].
        * rewrite <-(take_drop (N.to_nat n) xs) at 1. apply (ss_truncate _ _ true). rewrite take_length. lia.
        * eexists _, _. split; [reflexivity|]. simpl. rewrite take_length. lia.
      + erewrite bind_Ret.
        2: { apply redirect_stack. unfold sk_truncate. rewrite bind_get_fst, Hl.
             by rewrite (proj2 (N.ltb_ge _ _)) by lia. }
        eexists _, [], _, w, xs, [], []. split_and!; [done|by constructor|done|apply zafter_refl].
    - subst s. unfold sv_clear. erewrite bind_Ret.
      2: { apply redirect_stack. unfold sk_clear. rewrite bind_get_fst, Hl.
           erewrite bind_Ret by (apply sz_set_len; lia). rewrite Nat2N.id. by apply sz_drop_range. }
      eexists _, [], _, _, [], xs, []. split_and!; [done|constructor| |apply zafter_drops].
      eexists _, _. split; [reflexivity|]. simpl. lia.
    - unfold sv_from_iter. rewrite bind_assoc || idtac.
      destruct (sz_push_all (Some <$> l) (sv_new Cap) w [] szrep_new) as (ys&o&r&He&Ho&Hcase);
        [lia|rewrite fmap_length; simpl; lia|lia|]. simpl in Ho.
      assert (r = Ret tt /\ ys = l) as [-> ->].
      { destruct Hcase as [[-> Hy]|[_ [it' Hy]]].
        - split; [done|]. by apply (inj (fmap Some)) in Hy.
        - exfalso. assert (None ∈ (Some <$> l : list (option T))) as Hin
            by (rewrite Hy, elem_of_app; right; left).
          apply elem_of_list_fmap in Hin as (?&?&_). done. }
      erewrite bind_on_snd_Ret.
      2: { erewrite bind_Ret; [reflexivity|]. apply with_local_Ret_s. unfold sv_extend.
           erewrite bind_Ret by (eapply sz_reserve; [apply szrep_new|lia|simpl; lia|lia]).
           exact He. }
      cbn [snd]. pose proof (szrep_len _ _ Ho) as Hlo.
      destruct (sz_sv_set_len (llen xs + llen l) s w xs (xs ++ l) Hr) as (s'&Hes&Hs');
        [rewrite app_length; lia|lia|].
      erewrite bind_Ret.
      2: { apply on_unwind_Ret. unfold sv_append. rewrite Hlo.
           erewrite bind_Ret by (eapply sz_reserve; [done|lia..]).
           rewrite bind_get_fst. unfold store_copy. rewrite Hz. simpl orb. cbn iota.
           erewrite bind_on_snd_Ret by reflexivity.
           assert (SVec (sv_store s) (sv_marker s) = s) as -> by (by destruct s).
           erewrite bind_Ret by reflexivity. cbn [snd].
           rewrite Hsl, bind_uadd by lia.
           erewrite bind_Ret by exact Hes. reflexivity. }
      destruct Ho as (ko&mo&->&_&_).
      cbn [sv_store sv_marker].
      erewrite bind_on_snd_Ret.
      2: { apply (sz_drop _ _ []); [|done]. eexists _, _. split; [reflexivity|]. simpl. lia. }
      eexists _, l, s', w, (xs ++ l), [], []. split_and!; [done|constructor|done|apply zafter_refl].
    - unfold sv_extend_from_slice. rewrite bind_assoc.
      erewrite bind_Ret by (eapply sz_reserve; [done|lia..]).
      destruct (sz_push_clones l s w xs Hr) as (ys&s'&r&He&Hr'&[[-> Hcl]|[-> (l1&x&l2&->&Hcl&Hx)]]); [lia..| |].
      + erewrite bind_Ret by exact He.
        eexists _, ys, s', w, _, [], []. split_and!; [done| |done|apply zafter_refl]. by constructor.
      + erewrite bind_Panic by exact He.
        eexists _, ys, s', w, _, [], []. split_and!; [done| |done|apply zafter_refl]. by constructor.
    - unfold sv_extend. rewrite bind_assoc.
      erewrite bind_Ret by (eapply sz_reserve; [done|lia..]).
      destruct (sz_push_all it s w xs Hr) as (ys&s'&r&He&Hr'&[[-> ->]|[-> [it' ->]]]); [lia..| |].
      + erewrite bind_Ret by exact He.
        eexists _, ys, s', w, _, [], []. split_and!; [done| |done|apply zafter_refl]. by constructor.
      + erewrite bind_Panic by exact He.
        eexists _, ys, s', w, _, [], []. split_and!; [done| |done|apply zafter_refl]. by constructor.
    - erewrite bind_Ret by (eapply sz_reserve; [done|lia..]).
      eexists _, [], s, w, xs, [], []. split_and!; [done|constructor|done|apply zafter_refl].
    - unfold sv_reserve_exact. rewrite bind_assoc.
      erewrite bind_Ret by (eapply sz_try_reserve_exact; [done|lia..]).
      eexists _, [], s, w, xs, [], []. split_and!; [done|constructor|done|apply zafter_refl].
    - erewrite bind_Ret by (eapply sz_try_reserve; [done|lia..]).
      eexists _, [], s, w, xs, [], []. split_and!; [done|constructor|done|apply zafter_refl].
    - erewrite bind_Ret by (eapply sz_try_reserve_exact; [done|lia..]).
      eexists _, [], s, w, xs, [], []. split_and!; [done|constructor|done|apply zafter_refl].
    - subst s. unfold sv_shrink_to. erewrite bind_Ret by (apply redirect_stack; reflexivity).
      eexists _, [], _, w, xs, [], []. split_and!; [done|constructor|done|apply zafter_refl].
    - subst s. unfold sv_shrink_to_fit. erewrite bind_Ret by (apply redirect_stack; reflexivity).
      eexists _, [], _, w, xs, [], []. split_and!; [done|constructor|done|apply zafter_refl].
    - subst s. eexists _, [], _, w, xs, [], []. split_and!; [reflexivity| |done|apply zafter_refl].
      constructor. by right.
    - unfold sv_index. rewrite bind_assoc, bind_get_fst, Hsl. destruct (N.ltb_spec i (llen xs)).
      + erewrite bind_Ret by (by eapply sz_sv_read).
        eexists _, [], s, w, xs, [], []. split_and!; [done| |done|apply zafter_refl].
        constructor. destruct (lookup_lt_is_Some_2 xs (N.to_nat i)) as [y Hy]; [lia|].
        by rewrite Hy, (Hu y).
      + rewrite bind_throw. eexists _, [], s, w, xs, [], [].
        split_and!; [done|by constructor|done|apply zafter_refl].
    - unfold sv_assign. rewrite bind_assoc, bind_get_fst, Hsl. destruct (N.ltb_spec i (llen xs)).
      + rewrite bind_assoc. erewrite bind_Ret by (by eapply sz_sv_read). rewrite bind_assoc.
        erewrite bind_Ret by (by eapply sz_sv_write).
        erewrite bind_on_snd_Ret by (by apply sz_drop_val).
        eexists _, [x], s, _, (take (N.to_nat i) xs ++ x :: drop (S (N.to_nat i)) xs), [t_zst], [].
        split_and!; [done| | |apply (zafter_drops w [t_zst])].
        * rewrite (zeq Hz Hu xs (take (N.to_nat i) xs ++ t_zst :: drop (S (N.to_nat i)) xs)) at 1.
          { constructor. rewrite take_length. lia. }
          rewrite app_length. simpl. rewrite take_length, drop_length. lia.
        * subst s. eexists _, _. split; [reflexivity|].
          rewrite app_length. simpl. rewrite take_length, drop_length. lia.
      + erewrite bind_Panic.
        2: { eapply on_unwind_Panic; [reflexivity|]. apply on_snd_Ret. by apply sz_drop_val. }
        eexists _, [x], s, _, xs, [x], [].
        split_and!; [done|by constructor|done|apply (zafter_drops w [x])].
    - unfold sv_get. rewrite bind_assoc, bind_get_fst, Hsl. destruct (N.ltb_spec i (llen xs)).
      + rewrite bind_assoc. erewrite bind_Ret by (by eapply sz_sv_read). rewrite bind_ret.
        destruct (lookup_lt_is_Some_2 xs (N.to_nat i)) as [y Hy]; [lia|].
        eexists _, [], s, w, xs, [], []. split_and!; [done| |done|apply zafter_refl].
        rewrite <-(Hu y), <-Hy. constructor.
      + rewrite bind_ret. eexists _, [], s, w, xs, [], [].
        split_and!; [done| |done|apply zafter_refl].
        rewrite <-(lookup_ge_None_2 xs (N.to_nat i)) by lia. constructor.
    - erewrite bind_Ret by (by apply sz_slice).
      eexists _, [], s, w, xs, [], []. split_and!; [done|constructor|done|apply zafter_refl].
    - rewrite bind_get_fst, Hsl.
      eexists _, [], s, w, xs, [], []. split_and!; [done|constructor|done|apply zafter_refl].
    - eexists _, [], s, _, xs, [], []. split_and!; [done|constructor|done|].
      unfold zafter. simpl. by rewrite app_nil_r.
  Qed.

  Lemma sz_run ops : forall s w xs,
    szrep s xs -> Forall sz_call ops -> 4 <= Cap -> llen xs + total_sdemand ops <= Cap ->
    Cap + N.max 1 (total_sdemand ops) <= usize_max -> no_drop_panic ->
    exists outs ins s' w' xs' ds ls, srun Cap ops (s, w) = (outs, (s', w')) /\
      strace False t_clone xs ops ins outs xs' ds ls /\ Forall (fun o => o.1 = true) outs /\
      szrep s' xs' /\ zafter w w' ds.
  Proof.
    induction ops as [|op ops IH]; intros s w xs Hr Hcl H4 Hd Hb Hn.
    - exists [], [], s, w, xs, [], []. split_and!; [done|constructor|done|done|apply zafter_refl].
    - inversion_clear Hcl as [|?? H1 H2]. simpl in Hd, Hb.
      destruct (sz_step op s w xs Hr H1) as (o&i1&s1&w1&xs1&d1&l1&He&Hs&Hr1&Ha1); [lia..|done|].
      assert (llen xs1 <= llen xs + sdemand op) as Hlen.
      { destruct Hs; simpl in *; rewrite ?app_length, ?fmap_length in *; simpl in *;
          rewrite ?app_length in *; simpl in *; try lia; try done.
        all: match goal with H : Forall2 _ _ _ |- _ => apply Forall2_length in H end; lia. }
      destruct (IH s1 w1 xs1 Hr1 H2) as (outs&i2&s2&w2&xs2&d2&l2&He2&Ht&Hf&Hr2&Ha2); [lia..|done|].
      exists ((true, o) :: outs), (i1 ++ i2), s2, w2, xs2, (d1 ++ d2), (l1 ++ l2). split_and!; try done.
      + simpl. rewrite He, He2.
        assert (is_stack s = true) as -> by (by destruct Hr as (?&?&->&_)).
        assert ((exists a, o = Ret a) \/ exists p, o = Panic p) as [[? ->]|[? ->]].
        { destruct Hs; eauto. }
        all: done.
      + by econstructor.
      + by constructor.
      + by eapply zafter_trans.
  Qed.

  Lemma sz_pushes x n : forall s w xs ops,
    szrep s xs -> 4 <= Cap -> llen xs + N.of_nat n <= Cap -> Cap + 1 <= usize_max ->
    exists s', szrep s' (xs ++ replicate n x) /\
      srun Cap (replicate n (SPush x) ++ ops) (s, w) =
        (replicate n (true, Ret RUnit) ++ fst (srun Cap ops (s', w)), snd (srun Cap ops (s', w))).
  Proof.
    induction n as [|n IH]; intros s w xs ops Hr H4 Hn Hb.
    - exists s. rewrite app_nil_r. split; [done|]. simpl. by destruct (srun Cap ops (s, w)).
    - destruct (sz_push x s w xs Hr) as (s1&He&Hr1); [lia..|].
      destruct (IH s1 w (xs ++ [x]) ops Hr1) as (s'&Hr'&He'); [lia|rewrite app_length; simpl; lia|lia|].
      exists s'. rewrite <-app_assoc in Hr'. split; [done|]. simpl.
      erewrite bind_Ret by exact He. simpl. rewrite He'.
      by assert (is_stack s = true) as -> by (by destruct Hr as (?&?&->&_)).
  Qed.

  (** On the heap every request for room overflows the capacity computation. *)
  Lemma sz_heap_try_reserve n v m w :
    0 < n -> sv_try_reserve Cap n (SVec (Heap v) m, w) = (Panic PCapacity, (SVec (Heap v) m, w)).
  Proof.
    intros Hn. unfold sv_try_reserve. rewrite bind_get_fst.
    change (sv_capacity Cap (SVec (Heap v) m)) with (vcap v). rewrite (z_cap Hz).
    unfold overflow_guarded_add. by rewrite (proj2 (N.leb_gt _ _)) by lia.
  Qed.
  Lemma sz_heap_push x v m w : no_drop_panic ->
    sv_push Cap x (SVec (Heap v) m, w) = (Panic PCapacity, (SVec (Heap v) m, add_drop x w)).
  Proof.
    intros Hn. unfold sv_push. erewrite bind_Panic; [done|].
    eapply on_unwind_Panic; [|apply on_snd_Ret; by apply sz_drop_val].
    unfold sv_reserve. by erewrite bind_Panic by (by apply sz_heap_try_reserve).
  Qed.
  Lemma sz_vec_push x v w : v_len v + 1 <= usize_max ->
    vec_push x (v, w) = (Ret tt, (Vec (v_ptr v) (v_len v + 1), w)).
  Proof.
    intros Hb. unfold vec_push.
    erewrite bind_Ret.
    2: { apply on_unwind_Ret. apply (z_reserve_exact Hz 1 v w (replicate (N.to_nat (v_len v)) x)).
         - split; rewrite replicate_length; lia.
         - rewrite replicate_length. lia. }
    rewrite bind_get_fst. erewrite bind_on_snd_Ret by apply (z_write Hz).
    rewrite bind_uadd by done. by apply (z_set_len Hz).
  Qed.
  (** The push that goes beyond the inline capacity still works. *)
  Lemma sz_spill x s w xs sc :
    szrep s xs -> 4 <= Cap -> llen xs = Cap -> Cap + 1 <= usize_max -> cur_scope w = Some sc ->
    exists v m w', sv_push Cap x (s, w) = (Ret tt, (SVec (Heap v) m, w')) /\ v_len v = Cap + 1 /\
      vdata v = Dangling /\ heap w' = heap w /\ ncalls w' = ncalls w.
  Proof.
    intros Hr H4 Hf Hb Hsc. unfold sv_push.
    pose proof Hr as (k&m&->&Hl&_).
    assert (exists v w', sv_reserve Cap 1 (SVec (Stack k) m, w) = (Ret tt, (SVec (Heap v) m, w')) /\
      v_len v = Cap /\ vdata v = Dangling /\ heap w' = heap w /\ ncalls w' = ncalls w) as (v&w'&He&Hv&Hd&Ha).
    { unfold sv_reserve, sv_try_reserve. rewrite bind_assoc, bind_get_fst.
      change (sv_capacity Cap (SVec (Stack k) m)) with Cap.
      rewrite bind_assoc, guarded_add_ok by lia. rewrite sz_min, bind_assoc, bind_usub by lia.
      replace (N.max 4 (Cap + 1) - Cap) with 1 by lia. unfold sv_try_reserve_exact.
      rewrite bind_assoc, bind_get_fst. simpl sv_store. cbn iota.
      rewrite Hl, Hf, bind_assoc, guarded_add_ok by lia. rewrite (proj2 (N.ltb_lt _ _)) by lia.
      unfold sv_try_move_to_heap_and_reserve_exact. rewrite bind_assoc, bind_get_fst. simpl sv_store. cbn iota.
      rewrite Hl, Hf, bind_assoc, bind_uadd by lia. rewrite bind_assoc.
      unfold vec_try_with_capacity_and_marker. rewrite Hz, orb_true_r.
      eexists _, _. split.
      - erewrite bind_on_snd_Ret.
        2: { unfold vec_with_marker, alloc_for. unfold bind. rewrite Hsc. reflexivity. }
        cbn beta iota. rewrite bind_assoc. erewrite bind_on_snd_Ret by reflexivity.
        rewrite bind_assoc. erewrite bind_Ret.
        2: { apply on_heap_eq. apply (z_set_len Hz). lia. }
        rewrite bind_ret. reflexivity.
      - simpl. split_and!; try done. }
    erewrite bind_Ret by (apply on_unwind_Ret; exact He).
    exists (Vec (v_ptr v) (v_len v + 1)), m, w'. split; [apply redirect_heap, sz_vec_push; lia|].
    simpl. split; [lia|]. done.
  Qed.

  (** The calls on a spilled vector that need no room and keep it on the heap. *)
  Definition szh_call (op : sop T) : Prop :=
    match op with
    | SPop | SRemove _ | SSwapRemove _ | STruncate _ | SClear | SShrinkTo _ | SShrinkToFit
    | SIndex _ | SAssign _ _ | SGet _ | SAsSlice | SLen | SSetScope _ => True
    | _ => False
    end.
  Lemma szh_via {A} (c : M (vec * W) A) mk (f : A -> vret T) v m w o v' w' :
    bind c (fun a => ret (f a)) (v, w) = (o, (v', w')) ->
    bind (redirect mk c) (fun a => ret (f a)) (SVec (Heap v) m, w) = (o, (SVec (Heap v') m, w')).
  Proof.
    unfold redirect, bind, get_fst, on_heap. simpl.
    destruct (c (v, w)) as [[a|p| |u] [v1 w1]]; simpl; intros [= <- <- <-]; done.
  Qed.
  Lemma szh_step op v m w xs :
    zrep v xs -> szh_call op -> no_drop_panic ->
    exists o ins v' w' xs' ds, sexec Cap op (SVec (Heap v) m, w) = (o, (SVec (Heap v') m, w')) /\
      sspec False t_clone false xs op ins o xs' ds [] /\ zrep v' xs' /\ zafter w w' ds /\ llen xs' <= llen xs.
  Proof.
    intros Hr Hcall Hnd. pose proof Hr as [Hl Hb].
    assert (forall i x, sv_read (T:=T) i (SVec (Heap v) m, w) = (Ret t_zst, (SVec (Heap v) m, w)) /\
      sv_write i x (SVec (Heap v) m, w) = (Ret tt, (SVec (Heap v) m, w))) as Hrw.
    { intros i x. split; apply redirect_heap; rewrite bind_get_fst; apply on_snd_Ret;
        [apply (z_read Hz)|apply (z_write Hz)]. }
    assert (forall vop, z_call vop -> demand vop = 0 -> exists o ins v' w' xs' ds,
      vexec vop (v, w) = (o, (v', w')) /\ vspec False t_clone xs vop ins o xs' ds /\ zrep v' xs' /\
      zafter w w' ds) as Hstep.
    { intros vop Hc Hd. apply (z_step Hz Hu); try done. lia. }
    destruct op as [x| |i x|i|i|n| |l|l|it h|n|n|n|n|mm| | | |i|i x|i| | |sc]; try done; simpl.
    - destruct (Hstep OPop I eq_refl) as (o&ins&v'&w'&xs'&ds&He&Hs&Hr'&Ha).
      exists o, ins, v', w', xs', ds. split; [by apply (szh_via vec_pop _ ROpt)|].
      inversion Hs; subst; (split_and!; [constructor|done|done|rewrite ?app_length; lia]).
    - destruct (Hstep (ORemove i) I eq_refl) as (o&ins&v'&w'&xs'&ds&He&Hs&Hr'&Ha).
      exists o, ins, v', w', xs', ds. split; [by apply (szh_via (vec_remove i) _ RVal)|].
      inversion Hs; subst; (split_and!; [by constructor|done|done|rewrite ?app_length; simpl; lia]).
    - destruct (Hstep (OSwapRemove i) I eq_refl) as (o&ins&v'&w'&xs'&ds&He&Hs&Hr'&Ha).
      exists o, ins, v', w', xs', ds. split; [by apply (szh_via (vec_swap_remove i) _ RVal)|].
      inversion Hs; subst; (split_and!; [by constructor|done|done|rewrite ?app_length; simpl; rewrite ?app_length; simpl; lia]).
    - destruct (Hstep (OTruncate n) I eq_refl) as (o&ins&v'&w'&xs'&ds&He&Hs&Hr'&Ha).
      exists o, ins, v', w', xs', ds. split; [by apply (szh_via (vec_truncate n) _ (fun _ => RUnit))|].
      inversion Hs; subst; (split_and!; [|done|done|rewrite ?app_length; simpl; lia]).
      + by apply (ss_truncate _ _ false).
      + by constructor.
    - destruct (Hstep OClear I eq_refl) as (o&ins&v'&w'&xs'&ds&He&Hs&Hr'&Ha).
      exists o, ins, v', w', xs', ds. split; [by apply (szh_via vec_clear _ (fun _ => RUnit))|].
      inversion Hs; subst; (split_and!; [by constructor|done|done|simpl; lia]).
    - destruct (Hstep (OShrinkTo mm) I eq_refl) as (o&ins&v'&w'&xs'&ds&He&Hs&Hr'&Ha).
      exists o, ins, v', w', xs', ds. split; [by apply (szh_via (vec_shrink_to mm) _ (fun _ => RUnit))|].
      inversion Hs; subst; (split_and!; [by constructor|done|done|simpl; lia]).
    - destruct (Hstep OShrinkToFit I eq_refl) as (o&ins&v'&w'&xs'&ds&He&Hs&Hr'&Ha).
      exists o, ins, v', w', xs', ds. split; [by apply (szh_via vec_shrink_to_fit _ (fun _ => RUnit))|].
      inversion Hs; subst; (split_and!; [by constructor|done|done|simpl; lia]).
    - unfold sv_index. rewrite bind_assoc, bind_get_fst. change (sv_len (SVec (Heap v) m)) with (v_len v).
      rewrite Hl. destruct (N.ltb_spec i (llen xs)).
      + erewrite bind_Ret by (apply (Hrw i t_zst)).
        eexists _, [], v, w, xs, []. split_and!; [done| |done|apply zafter_refl|lia].
        constructor. destruct (lookup_lt_is_Some_2 xs (N.to_nat i)) as [y Hy]; [lia|].
        by rewrite Hy, (Hu y).
      + rewrite bind_throw. eexists _, [], v, w, xs, [].
        split_and!; [done|by constructor|done|apply zafter_refl|lia].
    - unfold sv_assign. rewrite bind_assoc, bind_get_fst. change (sv_len (SVec (Heap v) m)) with (v_len v).
      rewrite Hl. destruct (N.ltb_spec i (llen xs)).
      + rewrite bind_assoc. erewrite bind_Ret by (apply (Hrw i x)). rewrite bind_assoc.
        erewrite bind_Ret by (apply (Hrw i x)).
        erewrite bind_on_snd_Ret by (by apply sz_drop_val).
        eexists _, [x], v, _, (take (N.to_nat i) xs ++ x :: drop (S (N.to_nat i)) xs), [t_zst].
        split_and!; [done| | |apply (zafter_drops w [t_zst])|].
        * rewrite (zeq Hz Hu xs (take (N.to_nat i) xs ++ t_zst :: drop (S (N.to_nat i)) xs)) at 1.
          { constructor. rewrite take_length. lia. }
          rewrite app_length. simpl. rewrite take_length, drop_length. lia.
        * split; rewrite app_length; simpl; rewrite take_length, drop_length; lia.
        * rewrite app_length. simpl. rewrite take_length, drop_length. lia.
      + erewrite bind_Panic.
        2: { eapply on_unwind_Panic; [reflexivity|]. apply on_snd_Ret. by apply sz_drop_val. }
        eexists _, [x], v, _, xs, [x].
        split_and!; [done|by constructor|done|apply (zafter_drops w [x])|lia].
    - unfold sv_get. rewrite bind_assoc, bind_get_fst. change (sv_len (SVec (Heap v) m)) with (v_len v).
      rewrite Hl. destruct (N.ltb_spec i (llen xs)).
      + rewrite bind_assoc. erewrite bind_Ret by (apply (Hrw i t_zst)). rewrite bind_ret.
        destruct (lookup_lt_is_Some_2 xs (N.to_nat i)) as [y Hy]; [lia|].
        eexists _, [], v, w, xs, []. split_and!; [done| |done|apply zafter_refl|lia].
        rewrite <-(Hu y), <-Hy. constructor.
      + rewrite bind_ret. eexists _, [], v, w, xs, [].
        split_and!; [done| |done|apply zafter_refl|lia].
        rewrite <-(lookup_ge_None_2 xs (N.to_nat i)) by lia. constructor.
    - unfold sv_as_slice. erewrite bind_Ret.
      2: { apply redirect_heap. rewrite bind_get_fst. apply on_snd_Ret. unfold vec_as_slice.
           rewrite Hl, Nat2N.id. apply (z_read_list Hz Hu). }
      eexists _, [], v, w, xs, []. split_and!; [done|constructor|done|apply zafter_refl|lia].
    - rewrite bind_get_fst. change (sv_len (SVec (Heap v) m)) with (v_len v). rewrite Hl.
      eexists _, [], v, w, xs, []. split_and!; [done|constructor|done|apply zafter_refl|lia].
    - eexists _, [], v, _, xs, []. split_and!; [done|constructor|done| |lia].
      unfold zafter. simpl. by rewrite app_nil_r.
  Qed.
  Lemma szh_run ops : forall v m w xs,
    zrep v xs -> Forall szh_call ops -> no_drop_panic ->
    exists outs ins v' w' xs' ds, srun Cap ops (SVec (Heap v) m, w) = (outs, (SVec (Heap v') m, w')) /\
      strace False t_clone xs ops ins outs xs' ds [] /\ zrep v' xs' /\ zafter w w' ds.
  Proof.
    induction ops as [|op ops IH]; intros v m w xs Hr Hcl Hn.
    - exists [], [], v, w, xs, []. split_and!; [done|constructor|done|apply zafter_refl].
    - inversion_clear Hcl as [|?? H1 H2].
      destruct (szh_step op v m w xs Hr H1 Hn) as (o&i1&v1&w1&xs1&d1&He&Hs&Hr1&Ha1&_).
      destruct (IH v1 m w1 xs1 Hr1 H2 Hn) as (outs&i2&v2&w2&xs2&d2&He2&Ht&Hr2&Ha2).
      exists ((false, o) :: outs), (i1 ++ i2), v2, w2, xs2, (d1 ++ d2). split; [|split; [|split]].
      + simpl. rewrite He, He2.
        assert ((exists a, o = Ret a) \/ exists p, o = Panic p) as [[? ->]|[? ->]].
        { destruct Hs; eauto. }
        all: done.
      + by apply (st_cons _ _ xs op ops i1 i2 false o outs xs1 xs2 d1 d2 [] []).
      + done.
      + by eapply zafter_trans.
  Qed.
End szst.
