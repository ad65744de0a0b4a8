(** Compaction and iteration of a [Vec] of zero-sized elements. *)
From Verif Require Export SmallZst.
From Coq Require Import ZifyBool ZifyNat ZifyN.

Section zcomp.
  Context {EN : Env} {T : Type} {EL : Elem T} (Hz : t_size = 0) (Hu : forall x : T, x = t_zst).
  Notation W := (world T).
  Implicit Types (w : W) (v : vec) (xs ys : list T).

  Lemma zc_read i v w : vx_read i (v, w) = (Ret t_zst, (v, w)).
  Proof. simpl. rewrite bind_get_fst. apply on_snd_Ret. apply (z_read Hz). Qed.
  Lemma zc_write i x v w : vx_write i x (v, w) = (Ret tt, (v, w)).
  Proof. simpl. rewrite bind_get_fst. apply on_snd_Ret. apply (z_write Hz). Qed.
  Lemma zc_drop_at i v w : no_drop_panic -> vx_drop_at i (v, w) = (Ret tt, (v, add_drop t_zst w)).
  Proof. intros Hn. simpl. rewrite bind_get_fst. apply on_snd_Ret. by apply (z_drop_at Hz). Qed.
  Lemma zc_keep wr rd v w :
    rd <> wr -> v_len v + 1 <= usize_max ->
    keep_next wr rd (v, w) = (Ret tt, (Vec (v_ptr v) (v_len v + 1), w)).
  Proof.
    intros Hne Hb. unfold keep_next. rewrite bind_debug_assert by lia.
    erewrite bind_Ret by (simpl; rewrite bind_get_fst; apply on_snd_Ret; apply (z_copy_no Hz)).
    unfold vx_get_len. rewrite bind_assoc, bind_get_fst, bind_ret. simpl.
    rewrite bind_uadd by done. by apply (z_set_len Hz).
  Qed.

  Lemma zc_retain_loop {St} (f : St -> T -> St * bool) ys : no_drop_panic -> forall st wr rd v w,
    wr < rd -> v_len v + llen ys <= usize_max ->
    retain_loop (fun st x => let '(st', b) := f st x in (st', Some b)) st wr rd (length ys) (v, w) =
    let '(st', k, d) := retained f st ys in
    (Ret st', (Vec (v_ptr v) (v_len v + llen k), add_drops d w)).
  Proof.
    intros Hn. induction ys as [|y ys IH]; intros st wr rd v w Hlt Hb.
    - simpl. destruct v. simpl. by rewrite N.add_0_r.
    - cbn [retain_loop length retained]. erewrite bind_Ret by apply zc_read.
      rewrite (Hu y). destruct (f st t_zst) as [st1 b]. simpl in Hb.
      destruct b.
      + erewrite bind_Ret by (apply zc_keep; lia). rewrite IH by (simpl; lia).
        destruct (retained f st1 ys) as [[st2 k] d]. simpl.
        by replace (v_len v + 1 + llen k) with (v_len v + N.of_nat (S (length k))) by lia.
      + unfold discard_next. erewrite bind_Ret by (by apply zc_drop_at).
        rewrite IH by lia. by destruct (retained f st1 ys) as [[st2 k] d].
  Qed.

  Lemma zc_retain {St} (f : St -> T -> St * bool) st v w xs : no_drop_panic -> zrep v xs ->
    retain (fun st x => let '(st', b) := f st x in (st', Some b)) st (v, w) =
    let '(st', k, d) := retained f st (match xs with
        | x :: _ :: zs => if snd (f st x) then x :: zs else xs
        | _ => xs end) in
    (Ret st', (Vec (v_ptr v) (llen k), add_drops d w)).
  Proof.
    intros Hn [Hl Hb]. unfold retain, vx_get_len. rewrite bind_assoc, bind_get_fst, bind_ret.
    cbn [vx_len vec_vecx]. rewrite Hl. destruct xs as [|x xs].
    { simpl. destruct v. simpl in *. by rewrite Hl. }
    destruct (N.eqb_spec (llen (x :: xs)) 0) as [E|_]; [simpl in E; lia|].
    erewrite bind_Ret by apply zc_read. rewrite (Hu x). destruct (f st t_zst) as [st1 b] eqn:Ef.
    assert (forall b', retain_new (V:=vec) b' (v, w) =
      if b' then (Ret (0, 1, llen (x :: xs)), (Vec (v_ptr v) 0, add_drop t_zst w))
      else (Ret (1, 2, llen (x :: xs)), (Vec (v_ptr v) 1, w))) as Hnew.
    { intros b'. unfold retain_new, vx_get_len. rewrite bind_assoc, bind_get_fst, bind_ret.
      cbn [vx_len vec_vecx]. rewrite Hl. rewrite bind_debug_assert by (simpl; lia).
      destruct b'.
      - erewrite bind_Ret by (apply (z_set_len Hz); lia).
        by erewrite bind_Ret by (by apply zc_drop_at).
      - by erewrite bind_Ret by (apply (z_set_len Hz); simpl in Hb; lia). }
    destruct b; simpl negb.
    - erewrite bind_Ret by (rewrite Hnew; reflexivity).
      destruct xs as [|x2 zs].
      + simpl. rewrite Ef. simpl. done.
      + replace (N.to_nat (llen (x :: x2 :: zs) - 2)) with (length zs) by (simpl; lia).
        rewrite zc_retain_loop; [|done|lia|simpl in *; lia].
        simpl. rewrite Ef.
        destruct (retained f st1 zs) as [[st2 k] d]. simpl.
        by replace (1 + llen k) with (N.of_nat (S (length k))) by lia.
    - erewrite bind_Ret by (rewrite Hnew; reflexivity).
      cbv beta iota.
      replace (N.to_nat (llen (x :: xs) - 1)) with (length xs) by (simpl; lia).
      rewrite zc_retain_loop; [|done|lia|simpl in *; lia].
      transitivity (let '(st', k, d) := retained f st (t_zst :: xs) in
        (@Ret St st', (Vec (v_ptr v) (llen k), add_drops d w))); [|by destruct xs].
      simpl. rewrite Ef. by destruct (retained f st1 xs) as [[st2 k] d].
  Qed.

  (** [dedup]: all elements are alike, so only what the comparison says of the one value counts. *)
  Lemma zc_dedup_loop (same : T -> T -> bool) n : no_drop_panic -> forall kept wr rd v w,
    wr < rd -> v_len v + N.of_nat n <= usize_max ->
    dedup_by_loop (fun _ a b => (tt, (a, b), Some (same a b))) tt kept wr rd n (v, w) =
    (Ret tt, if same t_zst t_zst then (v, add_drops (replicate n t_zst) w)
             else (Vec (v_ptr v) (v_len v + N.of_nat n), w)).
  Proof.
    intros Hn. induction n as [|n IH]; intros kept wr rd v w Hlt Hb.
    - simpl. destruct v. simpl. rewrite N.add_0_r. by destruct (same _ _).
    - cbn [dedup_by_loop]. erewrite bind_Ret by apply zc_read. erewrite bind_Ret by apply zc_read.
      erewrite bind_Ret by apply zc_write. erewrite bind_Ret by apply zc_write.
      destruct (same t_zst t_zst) eqn:E.
      + unfold discard_next. erewrite bind_Ret by (by apply zc_drop_at).
        rewrite IH by lia. by rewrite ?E.
      + erewrite bind_Ret by (apply zc_keep; lia). rewrite IH by (simpl; lia). rewrite ?E. simpl.
        by replace (v_len v + 1 + N.of_nat n) with (v_len v + N.of_nat (S n)) by lia.
  Qed.
  Lemma zc_runs_same same (x : T) zs : same t_zst t_zst = true -> runs same (x :: zs) [x] zs.
  Proof.
    intros E. rewrite <-(app_nil_r zs). constructor; [|done|constructor].
    apply Forall_forall. intros y _. by rewrite (Hu x), (Hu y).
  Qed.
  Lemma zc_runs_other same xs : same t_zst t_zst = false -> runs same xs xs [].
  Proof.
    intros E. induction xs as [|x xs IH]; [constructor|].
    apply (runs_run same x [] xs xs []); [constructor| |done].
    destruct xs as [|y ?]; [done|]. by rewrite (Hu x), (Hu y).
  Qed.
  Lemma zc_dedup (same : T -> T -> bool) v w xs : no_drop_panic -> zrep v xs ->
    exists k d, dedup same (v, w) = (Ret tt, (Vec (v_ptr v) (llen k), add_drops d w)) /\
      runs (fun a b => same b a) (match xs with x :: _ :: zs => x :: zs | _ => xs end) k d.
  Proof.
    intros Hn [Hl Hb]. unfold dedup, dedup_by, vx_get_len. rewrite bind_assoc, bind_get_fst, bind_ret.
    cbn [vx_len vec_vecx]. rewrite Hl. destruct xs as [|x xs].
    { exists [], []. split; [|constructor]. destruct v. simpl in *. by rewrite Hl. }
    destruct (N.eqb_spec (llen (x :: xs)) 0) as [E|_]; [simpl in E; lia|].
    assert (retain_new (V:=vec) false (v, w) =
      (Ret (1, 2, llen (x :: xs)), (Vec (v_ptr v) 1, w))) as Hnew.
    { unfold retain_new, vx_get_len. rewrite bind_assoc, bind_get_fst, bind_ret.
      cbn [vx_len vec_vecx]. rewrite Hl. rewrite bind_debug_assert by (simpl; lia).
      by erewrite bind_Ret by (apply (z_set_len Hz); simpl in Hb; lia). }
    erewrite bind_Ret by exact Hnew. cbv beta iota.
    rewrite zc_dedup_loop; [|done|lia|simpl in *; lia].
    destruct (same t_zst t_zst) eqn:E.
    - exists [x], (match xs with _ :: zs => zs | [] => [] end). split.
      + do 3 f_equal. apply (zeq Hz Hu). rewrite replicate_length. destruct xs; simpl; lia.
      + by destruct xs; apply zc_runs_same.
    - exists (match xs with _ :: zs => x :: zs | [] => [x] end), []. split.
      + do 3 f_equal. destruct xs; simpl; lia.
      + by destruct xs; apply zc_runs_other.
  Qed.

  (** The iterator: [it_index] elements were taken from the front. *)
  Lemma zc_it_run cs : forall v n w xs,
    v_len v = n + llen xs -> v_len v <= usize_max -> deque_ok cs xs ->
    exists v' n', it_run cs (IntoIter v n, w) = (Ret <$> fst (deque cs xs), (IntoIter v' n', w)) /\
      v_ptr v' = v_ptr v /\ v_len v' = n' + llen (snd (deque cs xs)) /\ v_len v' <= usize_max.
  Proof.
    induction cs as [|c cs IH]; intros v n w xs Hl Hb Hok.
    - by exists v, n.
    - destruct Hok as [Hc Hok]. cbn [it_run].
      assert (exists v1 n1, (if c then it_next else it_next_back) (IntoIter v n, w) =
        (Ret (fst (take_end c xs)), (IntoIter v1 n1, w)) /\ v_ptr v1 = v_ptr v /\
        v_len v1 = n1 + llen (snd (take_end c xs)) /\ v_len v1 <= usize_max) as (v1&n1&He&Hp&Hl1&Hb1).
      { destruct c; cbn [take_end fst snd].
        - unfold it_next. rewrite bind_get_fst. cbn [it_index it_vec].
          destruct xs as [|x xs]; simpl in Hl.
          + destruct (N.ltb_spec n (v_len v)); [lia|]. exists v, n. by split_and!.
          + destruct (N.ltb_spec n (v_len v)); [|lia].
            rewrite bind_uadd by lia. rewrite bind_put_fst.
            erewrite bind_on_snd_Ret by apply (z_read Hz).
            exists v, (n + 1). split_and!; [by simpl; rewrite (Hu x)|done|simpl; lia|done].
        - unfold it_next_back, on_it_vec, vec_pop. cbn [it_index it_vec fst snd].
          destruct xs as [|x xs _] using rev_ind; [by destruct (Hc eq_refl)|].
          rewrite app_length in Hl. simpl in Hl.
          rewrite bind_get_fst. destruct (N.eqb_spec (v_len v) 0); [lia|].
          rewrite bind_usub by lia. erewrite bind_on_snd_Ret by apply (z_read Hz).
          erewrite bind_Ret by (apply (z_set_len Hz); lia). simpl.
          exists (Vec (v_ptr v) (v_len v - 1)), n.
          split_and!; [by rewrite last_snoc, (Hu x)|done| |simpl; lia].
          simpl. rewrite take_length, app_length. simpl. lia. }
      rewrite He. destruct (IH v1 n1 w _ Hl1 Hb1 Hok) as (v2&n2&He2&Hp2&Hl2&Hb2).
      rewrite He2. simpl. destruct (take_end c xs) as [o xs'] eqn:Et. simpl in *.
      destruct (deque cs xs') as [os ys] eqn:Ed. simpl in *.
      exists v2, n2. split_and!; [done|congruence|done|done].
  Qed.

  (** The pointer of a vector of zero-sized elements never changes. *)
  Definition fp {A} (m : M (vec * W) A) : Prop := forall v w, v_ptr (fst (snd (m (v, w)))) = v_ptr v.
  Lemma fp_ret {A} (a : A) : fp (ret a). Proof. done. Qed.
  Lemma fp_throw {A} p : fp (throw p : M (vec * W) A). Proof. done. Qed.
  Lemma fp_get : fp get_fst. Proof. done. Qed.
  Lemma fp_on_snd {A} (m : M W A) : fp (on_snd m).
  Proof. intros v w. unfold on_snd. simpl. by destruct (m w). Qed.
  Lemma fp_bind {A B} (m : M (vec * W) A) (k : A -> M (vec * W) B) :
    fp m -> (forall a, fp (k a)) -> fp (bind m k).
  Proof.
    intros Hm Hk v w. unfold bind. specialize (Hm v w). destruct (m (v, w)) as [[a|p| |u] [v' w']]; try done.
    simpl in Hm. by rewrite Hk.
  Qed.
  Lemma fp_on_unwind {A} (m : M (vec * W) A) c : fp m -> fp c -> fp (on_unwind m c).
  Proof.
    intros Hm Hc v w. unfold on_unwind. specialize (Hm v w).
    destruct (m (v, w)) as [[a|p| |u] [v' w']]; try done. simpl in Hm. specialize (Hc v' w').
    destruct (c (v', w')) as [[] [v'' w'']]; simpl in *; congruence.
  Qed.
  Lemma fp_finally {A} (m : M (vec * W) A) c : fp m -> fp c -> fp (finally m c).
  Proof.
    intros. unfold finally. apply fp_bind; [by apply fp_on_unwind|]. intros.
    apply fp_bind; [done|]. intros. apply fp_ret.
  Qed.
  Lemma fp_uadd a b : fp (uadd a b). Proof. unfold uadd. by repeat case_match. Qed.
  Lemma fp_usub a b : fp (usub a b). Proof. unfold usub. by repeat case_match. Qed.
  Lemma fp_debug_assert c : fp (debug_assert c). Proof. unfold debug_assert. by repeat case_match. Qed.
  Lemma fp_assert c : fp (assert c). Proof. unfold assert. by repeat case_match. Qed.
  Lemma fp_assume c u : fp (assume c u). Proof. unfold assume. by repeat case_match. Qed.
  Lemma fp_unwrap {A E} (r : result A E) : fp (unwrap r). Proof. by destruct r. Qed.
  Lemma fp_set_len n : fp (vec_set_len n).
  Proof.
    intros v w. unfold vec_set_len. rewrite bind_get_fst. unfold bind, debug_assert.
    destruct e_checks; [|done]. by destruct (n <=? vcap v).
  Qed.
  Lemma fp_try_reserve_exact n : fp (vec_try_reserve_exact n).
  Proof.
    intros v w. unfold vec_try_reserve_exact, overflow_guarded_add. rewrite bind_get_fst, (z_cap Hz).
    destruct (N.leb_spec (v_len v + n) usize_max); [|done].
    rewrite bind_ret. destruct (N.ltb_spec usize_max (v_len v + n)); [lia|done].
  Qed.
  Lemma fp_try_reserve n : fp (vec_try_reserve n).
  Proof.
    intros v w. unfold vec_try_reserve, overflow_guarded_add. rewrite bind_get_fst, (z_cap Hz).
    destruct (N.leb_spec (v_len v + n) usize_max); [|done].
    rewrite bind_ret. destruct (N.ltb_spec usize_max (v_len v + n)); [lia|done].
  Qed.
  Lemma fp_shrink n : fp (vec_shrink n).
  Proof.
    unfold vec_shrink. rewrite Hz. simpl.
    repeat (apply fp_bind; [apply fp_get || apply fp_debug_assert|intros]). apply fp_ret.
  Qed.
  Ltac fp_step :=
    first [apply fp_ret | apply fp_throw | apply fp_get | apply fp_on_snd | apply fp_uadd | apply fp_usub
          | apply fp_debug_assert | apply fp_assert | apply fp_assume | apply fp_unwrap | apply fp_set_len
          | apply fp_try_reserve_exact | apply fp_try_reserve | apply fp_shrink
          | apply fp_bind; [|intros] | apply fp_on_unwind | apply fp_finally
          | match goal with |- fp (match ?x with _ => _ end) => destruct x end
          | match goal with |- fp (let _ := _ in _) => cbv zeta end ].
  Lemma fp_reserve_exact n : fp (vec_reserve_exact n). Proof. unfold vec_reserve_exact. repeat fp_step. Qed.
  Lemma fp_push x : fp (vec_push x). Proof. unfold vec_push. repeat (fp_step || apply fp_reserve_exact). Qed.
  Lemma fp_pop : fp vec_pop. Proof. unfold vec_pop. repeat fp_step. Qed.
  Lemma fp_push_clones l : fp (vec_push_clones l).
  Proof. induction l; simpl; repeat (fp_step || apply fp_push || done). Qed.
  Lemma fp_push_all it : fp (vec_push_all it).
  Proof. induction it as [|[]]; simpl; repeat (fp_step || apply fp_push || done). Qed.
  Lemma fp_truncate n : fp (vec_truncate n). Proof. unfold vec_truncate. repeat fp_step. Qed.
  Lemma fp_push_next next n : (forall k, fp (next k)) -> forall k, fp (push_next (V:=vec) next k n).
  Proof.
    intros Hn. induction n as [|n IH]; intros k; simpl; [apply fp_ret|].
    apply fp_bind; [apply Hn|intros]. apply fp_bind; [apply fp_push|intros; apply IH].
  Qed.
  Lemma fp_do_resize next last cl n :
    (forall k, fp (next k)) -> (forall k, fp (last k)) -> fp cl -> fp (do_resize (V:=vec) next last cl n).
  Proof.
    intros Hn Hl Hc. unfold do_resize, vx_get_len.
    repeat (fp_step || apply Hl || apply Hc || apply fp_truncate || apply fp_push ||
            apply fp_reserve_exact || (apply fp_push_next; exact Hn)).
  Qed.
  Lemma fp_vexec op : fp (vexec op).
  Proof.
    destruct op; simpl; (apply fp_bind; [|intros]); try apply fp_ret; try apply fp_on_snd;
      unfold vec_insert, vec_remove, vec_swap_remove, vec_clear, vec_append, vec_extend_from_slice,
        vec_extend_from_iter, resize_val, resize_fn, call_fn, vec_reserve, vec_shrink_to, vec_shrink_to_fit,
        vec_index, vec_assign, vec_get;
      try (intros v w; reflexivity);
      repeat (fp_step || apply fp_push || apply fp_pop || apply fp_truncate || apply fp_reserve_exact ||
              apply fp_push_clones || apply fp_push_all || (apply fp_do_resize; intros)).
    all: apply fp_push_next; intros; repeat fp_step.
  Qed.
  Lemma fp_vrun ops : forall v w, v_ptr (fst (snd (vrun ops (v, w)))) = v_ptr v.
  Proof.
    induction ops as [|op ops IH]; intros v w; simpl; [done|].
    pose proof (fp_vexec op v w) as H.
    destruct (vexec op (v, w)) as [[a|p| |u] [v' w']]; simpl in H; [| |done|done].
    - specialize (IH v' w'). destruct (vrun ops (v', w')) as [? [? ?]]. simpl in *. congruence.
    - specialize (IH v' w'). destruct (vrun ops (v', w')) as [? [? ?]]. simpl in *. congruence.
  Qed.

  Lemma zc_new_dangling w v w' : vec_new w = (Ret v, w') -> vdata v = Dangling.
  Proof.
    intros Hn. unfold vec_new, vec_with_marker, alloc_for, bind in Hn. destruct (cur_scope w); [|done].
    by injection Hn as <- _.
  Qed.
  Lemma zc_it_drop v n w : no_drop_panic -> vdata v = Dangling -> n <= v_len v ->
    fst (it_drop (IntoIter v n, w)) = UB Dangling_access.
  Proof.
    intros Hn Hv Hl. unfold it_drop.
    set (k := v_len v - n).
    assert (it_drop_body (IntoIter v n, w) =
      (Ret tt, (IntoIter (Vec (v_ptr v) 0) n, add_drops (replicate (N.to_nat k) t_zst) w))) as Hb.
    { unfold it_drop_body. rewrite bind_get_fst. cbn [it_vec it_index].
      assert (on_it_vec (vec_set_len 0) (IntoIter v n, w) = (Ret tt, (IntoIter (Vec (v_ptr v) 0) n, w))) as Hs.
      { unfold on_it_vec. cbn [fst snd it_vec it_index]. rewrite (z_set_len Hz) by lia. done. }
      erewrite bind_Ret by exact Hs. rewrite bind_usub by done. rewrite Hz, N.mul_0_r.
      destruct (N.ltb_spec isize_max 0); [lia|]. apply on_snd_Ret.
      rewrite <-(z_drop_loop Hz Hu _ (vdata v) n w Hn). by rewrite replicate_length. }
    unfold finally. erewrite bind_Ret by (apply on_unwind_Ret; exact Hb).
    pose proof (z_drop Hz Hu (Vec (v_ptr v) 0) (add_drops (replicate (N.to_nat k) t_zst) w) Hn Hv) as Hd.
    unfold vec_drop_val in Hd. unfold bind, on_it_vec. cbn [fst snd it_vec it_index].
    destruct (vec_drop _) as [r [v' w']]. simpl in Hd. by subst r.
  Qed.

  Lemma zc_append v o w xs ys : zrep v xs -> zrep o ys -> llen xs + llen ys <= usize_max ->
    vec_append o (v, w) = (Ret (Vec (v_ptr o) 0), (Vec (v_ptr v) (llen (xs ++ ys)), w)).
  Proof.
    intros Hr [Ho _] Hb. unfold vec_append. rewrite Ho.
    erewrite bind_Ret by (by apply (z_reserve_exact Hz) with (xs := xs)).
    destruct Hr as [Hl _]. rewrite bind_get_fst.
    erewrite bind_Ret by (apply on_snd_Ret, (z_copy_no Hz)).
    rewrite Hl, bind_uadd by done. erewrite bind_Ret by (by apply (z_set_len Hz)).
    by rewrite app_length, Nat2N.inj_add.
  Qed.

  Lemma zc_new w sc : cur_scope w = Some sc -> exists a w', vec_new w = (Ret (Vec (sp_dangling a MNone) 0), w') /\
    heap w' = heap w /\ ncalls w' = ncalls w /\ drops w' = drops w.
  Proof.
    intros Hs. unfold vec_new, vec_with_marker, alloc_for, bind. rewrite Hs. by eexists _, _.
  Qed.
  Lemma zc_from_array l w sc : cur_scope w = Some sc -> llen l <= usize_max ->
    exists v w', vec_from_array l w = (Ret v, w') /\ v_len v = llen l /\ vdata v = Dangling /\
      heap w' = heap w /\ ncalls w' = ncalls w /\ drops w' = drops w.
  Proof.
    intros Hs Hb. destruct (zc_new w sc Hs) as (a&w'&Hn&Hh&Hc&Hd).
    exists (Vec (sp_dangling a MNone) (llen l)), w'. split_and!; try done.
    unfold vec_from_array. erewrite bind_Ret by (apply on_unwind_Ret; exact Hn).
    etrans; [eapply bind_Ret, (with_local_Ret _ _ _ _ tt (Vec (sp_dangling a MNone) (llen l)) w')|done].
    erewrite bind_Ret by (apply on_unwind_Ret, (z_reserve_exact Hz) with (xs := []); [split; [done|simpl; lia]|simpl; lia]).
    rewrite bind_get_fst, Hz. cbn [N.eqb orb]. erewrite bind_Ret by (by apply on_snd_Ret).
    by apply (z_set_len Hz).
  Qed.
  Lemma zc_into_boxed v w xs : zrep v xs -> vec_into_boxed_slice v w = (Ret (v_ptr v), w).
  Proof.
    intros [Hl Hb]. unfold vec_into_boxed_slice.
    etrans; [eapply bind_Ret, (with_local_Ret _ _ _ _ tt v w)|done]. unfold vec_shrink_to_fit. rewrite bind_get_fst, (z_cap Hz).
    destruct (N.ltb_spec (v_len v) usize_max); [|done].
    erewrite bind_Ret; [|].
    2: { unfold vec_shrink. rewrite bind_get_fst, bind_debug_assert by (rewrite (z_cap Hz); lia).
         rewrite bind_debug_assert by lia. rewrite Hz. reflexivity. }
    done.
  Qed.
End zcomp.
