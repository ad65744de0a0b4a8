(** Compaction of a [SmallVec] of zero-sized elements. *)
From Verif Require Export ZstComp.
From Coq Require Import ZifyBool ZifyNat ZifyN.

Section zcomp2.
  Context {EN : Env} {T : Type} {EL : Elem T} (Cap : N) (HC : Cap <= usize_max).
  Context (Hz : t_size = 0) (Hu : forall x : T, x = t_zst).
  Notation W := (world T).
  Implicit Types (w : W) (v : stackvec T) (xs ys : list T).
  (** src/small_vec.rs 767-808: the inline storage as [RetainIter] sees it. *)
  Local Instance kx : Vecx T (stackvec T) := stack_vecx Cap.

  Lemma zk_read i v w : vx_read i (v, w) = (Ret t_zst, (v, w)).
  Proof. apply (sz_read Hz). Qed.
  Lemma zk_write i x v w : vx_write i x (v, w) = (Ret tt, (v, w)).
  Proof. apply (sz_write Hz). Qed.
  Lemma zk_drop_at i v w : no_drop_panic ->
    vx_drop_at i (v, w) = (Ret tt, (v, add_drop t_zst w)).
  Proof.
    intros Hn. simpl. unfold sk_drop_at. rewrite Hz. simpl. apply on_snd_Ret. by apply sz_drop_val.
  Qed.
  Lemma zk_keep wr rd v w :
    rd <> wr -> sk_len v + 1 <= Cap ->
    keep_next wr rd (v, w) = (Ret tt, (StackVec (sk_slots v) (sk_len v + 1), w)).
  Proof.
    intros Hne Hb. unfold keep_next. rewrite bind_debug_assert by lia.
    erewrite bind_Ret by (apply (sz_copy_no Hz)).
    unfold vx_get_len. rewrite bind_assoc, bind_get_fst, bind_ret. simpl.
    rewrite bind_uadd by lia. by apply (sz_set_len Cap).
  Qed.

  Lemma zk_retain_loop {St} (f : St -> T -> St * bool) ys : no_drop_panic -> forall st wr rd v w,
    wr < rd -> sk_len v + llen ys <= Cap ->
    retain_loop (fun st x => let '(st', b) := f st x in (st', Some b)) st wr rd (length ys) (v, w) =
    let '(st', k, d) := retained f st ys in
    (Ret st', (StackVec (sk_slots v) (sk_len v + llen k), add_drops d w)).
  Proof.
    intros Hn. induction ys as [|y ys IH]; intros st wr rd v w Hlt Hb.
    - simpl. destruct v. simpl. by rewrite N.add_0_r.
    - cbn [retain_loop length retained]. erewrite bind_Ret by apply zk_read.
      rewrite (Hu y). destruct (f st t_zst) as [st1 b]. simpl in Hb.
      destruct b.
      + erewrite bind_Ret by (apply zk_keep; lia). rewrite IH by (simpl; lia).
        destruct (retained f st1 ys) as [[st2 k] d]. simpl.
        by replace (sk_len v + 1 + llen k) with (sk_len v + N.of_nat (S (length k))) by lia.
      + unfold discard_next. erewrite bind_Ret by (by apply zk_drop_at).
        rewrite IH by lia. by destruct (retained f st1 ys) as [[st2 k] d].
  Qed.

  Lemma zk_retain {St} (f : St -> T -> St * bool) st v w xs : no_drop_panic -> sk_len v = llen xs /\ llen xs <= Cap ->
    retain (fun st x => let '(st', b) := f st x in (st', Some b)) st (v, w) =
    let '(st', k, d) := retained f st (match xs with
        | x :: _ :: zs => if snd (f st x) then x :: zs else xs
        | _ => xs end) in
    (Ret st', (StackVec (sk_slots v) (llen k), add_drops d w)).
  Proof.
    intros Hn [Hl Hb]. unfold retain, vx_get_len. rewrite bind_assoc, bind_get_fst, bind_ret.
    cbn [vx_len kx stack_vecx]. rewrite Hl. destruct xs as [|x xs].
    { simpl. destruct v. simpl in *. by rewrite Hl. }
    destruct (N.eqb_spec (llen (x :: xs)) 0) as [E|_]; [simpl in E; lia|].
    erewrite bind_Ret by apply zk_read. rewrite (Hu x). destruct (f st t_zst) as [st1 b] eqn:Ef.
    assert (forall b', retain_new (V:=stackvec T) b' (v, w) =
      if b' then (Ret (0, 1, llen (x :: xs)), (StackVec (sk_slots v) 0, add_drop t_zst w))
      else (Ret (1, 2, llen (x :: xs)), (StackVec (sk_slots v) 1, w))) as Hnew.
    { intros b'. unfold retain_new, vx_get_len. rewrite bind_assoc, bind_get_fst, bind_ret.
      cbn [vx_len kx stack_vecx]. rewrite Hl. rewrite bind_debug_assert by (simpl; lia).
      destruct b'.
      - erewrite bind_Ret by (apply (sz_set_len Cap); lia).
        by erewrite bind_Ret by (by apply zk_drop_at).
      - by erewrite bind_Ret by (apply (sz_set_len Cap); simpl in Hb; lia). }
    destruct b; simpl negb.
    - erewrite bind_Ret by (rewrite Hnew; reflexivity).
      destruct xs as [|x2 zs].
      + simpl. rewrite Ef. simpl. done.
      + replace (N.to_nat (llen (x :: x2 :: zs) - 2)) with (length zs) by (simpl; lia).
        rewrite zk_retain_loop; [|done|lia|simpl in *; lia].
        simpl. rewrite Ef.
        destruct (retained f st1 zs) as [[st2 k] d]. simpl.
        by replace (1 + llen k) with (N.of_nat (S (length k))) by lia.
    - erewrite bind_Ret by (rewrite Hnew; reflexivity).
      cbv beta iota.
      replace (N.to_nat (llen (x :: xs) - 1)) with (length xs) by (simpl; lia).
      rewrite zk_retain_loop; [|done|lia|simpl in *; lia].
      transitivity (let '(st', k, d) := retained f st (t_zst :: xs) in
        (@Ret St st', (StackVec (sk_slots v) (llen k), add_drops d w))); [|by destruct xs].
      simpl. rewrite Ef. by destruct (retained f st1 xs) as [[st2 k] d].
  Qed.

  (** [dedup]: all elements are alike, so only what the comparison says of the one value counts. *)
  Lemma zk_dedup_loop (same : T -> T -> bool) n : no_drop_panic -> forall kept wr rd v w,
    wr < rd -> sk_len v + N.of_nat n <= Cap ->
    dedup_by_loop (fun _ a b => (tt, (a, b), Some (same a b))) tt kept wr rd n (v, w) =
    (Ret tt, if same t_zst t_zst then (v, add_drops (replicate n t_zst) w)
             else (StackVec (sk_slots v) (sk_len v + N.of_nat n), w)).
  Proof.
    intros Hn. induction n as [|n IH]; intros kept wr rd v w Hlt Hb.
    - simpl. destruct v. simpl. rewrite N.add_0_r. by destruct (same _ _).
    - cbn [dedup_by_loop]. erewrite bind_Ret by apply zk_read. erewrite bind_Ret by apply zk_read.
      erewrite bind_Ret by apply zk_write. erewrite bind_Ret by apply zk_write.
      destruct (same t_zst t_zst) eqn:E.
      + unfold discard_next. erewrite bind_Ret by (by apply zk_drop_at).
        rewrite IH by lia. by rewrite ?E.
      + erewrite bind_Ret by (apply zk_keep; lia). rewrite IH by (simpl; lia). rewrite ?E. simpl.
        by replace (sk_len v + 1 + N.of_nat n) with (sk_len v + N.of_nat (S n)) by lia.
  Qed.
  Lemma zk_dedup (same : T -> T -> bool) v w xs : no_drop_panic -> sk_len v = llen xs /\ llen xs <= Cap ->
    exists k d, dedup same (v, w) = (Ret tt, (StackVec (sk_slots v) (llen k), add_drops d w)) /\
      runs (fun a b => same b a) (match xs with x :: _ :: zs => x :: zs | _ => xs end) k d.
  Proof.
    intros Hn [Hl Hb]. unfold dedup, dedup_by, vx_get_len. rewrite bind_assoc, bind_get_fst, bind_ret.
    cbn [vx_len kx stack_vecx]. rewrite Hl. destruct xs as [|x xs].
    { exists [], []. split; [|constructor]. destruct v. simpl in *. by rewrite Hl. }
    destruct (N.eqb_spec (llen (x :: xs)) 0) as [E|_]; [simpl in E; lia|].
    assert (retain_new (V:=stackvec T) false (v, w) =
      (Ret (1, 2, llen (x :: xs)), (StackVec (sk_slots v) 1, w))) as Hnew.
    { unfold retain_new, vx_get_len. rewrite bind_assoc, bind_get_fst, bind_ret.
      cbn [vx_len kx stack_vecx]. rewrite Hl. rewrite bind_debug_assert by (simpl; lia).
      by erewrite bind_Ret by (apply (sz_set_len Cap); simpl in Hb; lia). }
    erewrite bind_Ret by exact Hnew. cbv beta iota.
    rewrite zk_dedup_loop; [|done|lia|simpl in *; lia].
    destruct (same t_zst t_zst) eqn:E.
    - exists [x], (match xs with _ :: zs => zs | [] => [] end). split.
      + do 3 f_equal. apply (zeq Hz Hu). rewrite replicate_length. destruct xs; simpl; lia.
      + by destruct xs; apply (zc_runs_same Hu).
    - exists (match xs with _ :: zs => x :: zs | [] => [x] end), []. split.
      + do 3 f_equal. destruct xs; simpl; lia.
      + by destruct xs; apply (zc_runs_other Hu).
  Qed.

End zcomp2.
