(** Proofs about the code generic in [Vecx]: retain, dedup, resize, drain. *)
From Verif Require Export VecProofs4.
From Coq Require Import ZifyBool ZifyNat ZifyN.

(** What the generic code relies on: ownership of a list of slots, a frame relation, and the
    effect of each primitive. *)
Class VecxLaws `{!Env} {T : Type} `{!Elem T} (V : Type) `{!Vecx T V} := {
  vo : world T -> V -> list (option T) -> Prop;
  vk : V -> world T -> V -> world T -> list T -> Prop;
  vo_bound : forall w v s, vo w v s -> llen s <= isize_max;
  vk_refl : forall v w, vk v w v w [];
  vk_trans : forall v1 w1 v2 w2 v3 w3 d1 d2,
    vk v1 w1 v2 w2 d1 -> vk v2 w2 v3 w3 d2 -> vk v1 w1 v3 w3 (d1 ++ d2);
  vo_drop : forall w v s x, vo w v s -> vo (add_drop x w) v s;
  vk_drop : forall v w x, vk v w v (add_drop x w) [x];
  l_set_len : forall w v s n, vo w v s -> n <= llen s ->
    exists v', vx_set_len n (v, w) = (Ret tt, (v', w)) /\ vo w v' s /\ vx_len v' = n /\
               vk v w v' w [];
  l_read : forall w v s i x, vo w v s -> s !! N.to_nat i = Some (Some x) ->
    vx_read i (v, w) = (Ret x, (v, w));
  l_write : forall w v s i x, vo w v s -> i < llen s ->
    exists v' w', vx_write i x (v, w) = (Ret tt, (v', w')) /\
      vo w' v' (<[N.to_nat i := Some x]> s) /\ vx_len v' = vx_len v /\ vk v w v' w' [];
  l_drop_at : forall w v s i x, vo w v s -> s !! N.to_nat i = Some (Some x) ->
    vx_drop_at i (v, w) = (drop_res x, (v, add_drop x w));
  l_move : forall w v s i j x, vo w v s -> s !! N.to_nat i = Some (Some x) -> j < llen s -> i <> j ->
    exists v' w', vx_copy_no i j 1 (v, w) = (Ret tt, (v', w')) /\
      vo w' v' (<[N.to_nat j := Some x]> s) /\ vx_len v' = vx_len v /\ vk v w v' w' []
}.

Section vecx.
  Context {EN : Env} {T : Type} {EL : Elem T} {V : Type} {VX : Vecx T V} {L : VecxLaws V}.
  Notation W := (world T).
  Notation MX := (M (V * W)).
  Implicit Types (w : W) (v : V) (s : list (option T)) (xs : list T).

  Definition vrep (w : W) (v : V) (xs : list T) : Prop :=
    vx_len v = llen xs /\ exists rest, vo w v ((Some <$> xs) ++ rest).

  Lemma vk_trans_r v1 w1 v2 w2 v3 w3 d :
    vk v1 w1 v2 w2 [] -> vk v2 w2 v3 w3 d -> vk v1 w1 v3 w3 d.
  Proof. intros. by eapply (vk_trans _ _ _ _ _ _ []). Qed.

  Lemma vread w v xs rest i x :
    vo w v ((Some <$> xs) ++ rest) -> xs !! N.to_nat i = Some x -> vx_read i (v, w) = (Ret x, (v, w)).
  Proof. intros Ho Hi. eapply l_read; [done|]. by apply lookup_slots. Qed.

  (** The layout during compaction: [K] kept, then at least one stale slot, then [R] unread. *)
  Definition mid (s : list (option T)) (K : list T) (read : N) (R : list T) : Prop :=
    exists G rest, s = (Some <$> K) ++ G ++ (Some <$> R) ++ rest /\
      read = llen K + llen G /\ G <> [].

  Lemma mid_lookup s K read x R : mid s K read (x :: R) -> s !! N.to_nat read = Some (Some x).
  Proof.
    intros (G&rest&->&->&_). rewrite app_assoc.
    replace (N.to_nat (llen K + llen G)) with (length ((Some <$> K) ++ G) + 0)%nat.
    2: { rewrite app_length, fmap_length. lia. }
    rewrite lookup_app_r by lia. by replace (_ + 0 - _)%nat with 0%nat by lia.
  Qed.
  Lemma mid_len s K read R : mid s K read R -> llen K < read /\ read + llen R <= llen s.
  Proof.
    intros (G&rest&->&->&HG). rewrite !app_length, !fmap_length.
    destruct G; [done|]. simpl. lia.
  Qed.
  Lemma mid_discard s K read x R : mid s K read (x :: R) -> mid s K (read + 1) R.
  Proof.
    intros (G&rest&->&->&HG). exists (G ++ [Some x]), rest. split_and!.
    - by rewrite <-!app_assoc.
    - rewrite app_length. simpl. lia.
    - by destruct G.
  Qed.
  Lemma mid_keep s K read x R :
    mid s K read (x :: R) -> mid (<[length K := Some x]> s) (K ++ [x]) (read + 1) R.
  Proof.
    intros (G&rest&->&->&HG). destruct G as [|g G]; [done|].
    exists (G ++ [Some x]), rest. split_and!.
    - rewrite fmap_app, <-!app_assoc. replace (length K) with (length (Some <$> K) + 0)%nat
        by (rewrite fmap_length; lia).
      rewrite insert_app_r. done.
    - rewrite !app_length. simpl. lia.
    - by destruct G.
  Qed.
  Lemma mid_prefix s K read R : mid s K read R -> exists rest, s = (Some <$> K) ++ rest.
  Proof. intros (G&rest&->&_). eauto. Qed.
  Lemma mid_update s K read x x' R :
    mid s K read (x :: R) -> mid (<[N.to_nat read := Some x']> s) K read (x' :: R).
  Proof.
    intros (G&rest&->&->&HG). exists G, rest. split_and!; try done.
    replace (N.to_nat (llen K + llen G)) with (length (Some <$> K) + (length G + 0))%nat
      by (rewrite fmap_length; lia).
    by rewrite !insert_app_r.
  Qed.

  Lemma keep_next_ok w v s K read x R :
    vo w v s -> vx_len v = llen K -> mid s K read (x :: R) ->
    exists v' w' s', keep_next (llen K) read (v, w) = (Ret tt, (v', w')) /\
      s' = <[length K := Some x]> s /\
      vo w' v' s' /\ vx_len v' = llen (K ++ [x]) /\ mid s' (K ++ [x]) (read + 1) R /\
      vk v w v' w' [].
  Proof.
    intros Ho Hl Hm. pose proof (mid_len _ _ _ _ Hm) as [H1 H2]. simpl in H2.
    pose proof (vo_bound _ _ _ Ho).
    unfold keep_next. rewrite bind_debug_assert by (destruct (N.eqb_spec read (llen K)); [lia|done]).
    destruct (l_move w v s read (llen K) x Ho (mid_lookup _ _ _ _ _ Hm)) as (v1&w1&Hmv&Ho1&Hl1&Hk1);
      [lia|lia|].
    erewrite bind_Ret by exact Hmv. unfold vx_get_len. rewrite bind_assoc, bind_get_fst.
    rewrite bind_ret, Hl1, Hl. rewrite bind_uadd by (unfold isize_max, usize_max in *; lia).
    rewrite Nat2N.id in Ho1.
    destruct (l_set_len _ _ _ (llen K + 1) Ho1) as (v2&Hs&Ho2&Hl2&Hk2).
    { rewrite insert_length. lia. }
    exists v2, w1, (<[length K := Some x]> s). split_and!; try done.
    - rewrite Hl2, app_length. simpl. lia.
    - by apply mid_keep.
    - by eapply vk_trans_r.
  Qed.

  (** ** retain *)
  (** What the loop of [retain] does to the unread elements: outcome, kept, destroyed. *)
  Fixpoint retain_run {St} (f : St -> T -> St * option bool) (st : St) (R : list T)
    : res St * list T * list T :=
    match R with
    | [] => (Ret st, [], [])
    | x :: R =>
        let '(st, r) := f st x in
        match r with
        | None => (Panic PUser, [], [])
        | Some true => let '(o, k, d) := retain_run f st R in (o, x :: k, d)
        | Some false =>
            if t_needs_drop && t_drop_panics x then (Panic PDrop, [], [x])
            else let '(o, k, d) := retain_run f st R in (o, k, x :: d)
        end
    end.

  Lemma retain_loop_ok {St} (f : St -> T -> St * option bool) R : forall st w v s K read,
    vo w v s -> vx_len v = llen K -> mid s K read R ->
    exists v' w' o k d, retain_loop f st (llen K) read (length R) (v, w) = (o, (v', w')) /\
      retain_run f st R = (o, k, d) /\ vrep w' v' (K ++ k) /\ vk v w v' w' d.
  Proof.
    induction R as [|x R IH]; intros st w v s K read Ho Hl Hm.
    - exists v, w, (Ret st), [], []. split_and!; try done; [|apply vk_refl].
      rewrite app_nil_r. split; [done|]. destruct (mid_prefix _ _ _ _ Hm) as [rest ->]. eauto.
    - simpl. erewrite bind_Ret by (eapply l_read; [done|by eapply mid_lookup]).
      destruct (f st x) as [st' [[]|]].
      + destruct (keep_next_ok w v s K read x R Ho Hl Hm) as (v1&w1&s1&Hk&_&Ho1&Hl1&Hm1&Hf1).
        erewrite bind_Ret by exact Hk.
        replace (llen K + 1) with (llen (K ++ [x])) by (rewrite app_length; simpl; lia).
        destruct (IH st' w1 v1 s1 (K ++ [x]) (read + 1) Ho1 Hl1 Hm1)
          as (v'&w'&o&k&d&Hlp&Hrun&Hr&Hf).
        exists v', w', o, (x :: k), d. rewrite Hrun. rewrite <-app_assoc in Hr.
        split_and!; try done. by eapply vk_trans_r.
      + unfold discard_next.
        assert (Hd := l_drop_at w v s read x Ho (mid_lookup _ _ _ _ _ Hm)).
        unfold bind. rewrite Hd. unfold drop_res.
        destruct (t_needs_drop && t_drop_panics x).
        * exists v, (add_drop x w), (Panic PDrop), [], [x]. split_and!; try done; [|apply vk_drop].
          rewrite app_nil_r. split; [done|]. destruct (mid_prefix _ _ _ _ Hm) as [rest ->].
          exists rest. by apply vo_drop.
        * destruct (IH st' (add_drop x w) v s K (read + 1) (vo_drop _ _ _ _ Ho) Hl
                      (mid_discard _ _ _ _ _ Hm)) as (v'&w'&o&k&d&Hlp&Hrun&Hr&Hf).
          exists v', w', o, k, (x :: d). rewrite Hrun. split_and!; try done.
          by eapply (vk_trans _ _ _ _ _ _ [x] d); [apply vk_drop|].
      + exists v, w, (Panic PUser), [], []. split_and!; try done; [|apply vk_refl].
        rewrite app_nil_r. split; [done|]. destruct (mid_prefix _ _ _ _ Hm) as [rest ->]. eauto.
  Qed.

  (** What [retain] does as a whole: outcome, contents afterwards, destroyed elements.  When the
      first element is kept, the second is neither examined, nor kept, nor destroyed. *)
  Definition retain_all {St} (f : St -> T -> St * option bool) (st : St) (xs : list T)
    : res St * list T * list T :=
    match xs with
    | [] => (Ret st, [], [])
    | x :: R =>
        let '(st, r) := f st x in
        match r with
        | None => (Panic PUser, xs, [])
        | Some true => let '(o, k, d) := retain_run f st (tail R) in (o, x :: k, d)
        | Some false =>
            if t_needs_drop && t_drop_panics x then (Panic PDrop, [], [x])
            else let '(o, k, d) := retain_run f st R in (o, k, x :: d)
        end
    end.

  Lemma retain_ok {St} (f : St -> T -> St * option bool) st w v xs :
    vrep w v xs ->
    exists v' w' o k d, retain f st (v, w) = (o, (v', w')) /\ retain_all f st xs = (o, k, d) /\
      vrep w' v' k /\ vk v w v' w' d.
  Proof.
    intros Hr. pose proof Hr as [Hl [rest Ho]]. unfold retain, vx_get_len.
    rewrite bind_assoc, bind_get_fst, bind_ret, Hl.
    destruct xs as [|x R].
    { exists v, w, (Ret st), [], []. split_and!; try done. apply vk_refl. }
    destruct (N.eqb_spec (llen (x :: R)) 0) as [H|_]; [simpl in H; lia|].
    erewrite bind_Ret by (by eapply vread). simpl. destruct (f st x) as [st' [[]|]].
    - (* kept *)
      simpl. unfold retain_new, vx_get_len. rewrite !bind_assoc, bind_get_fst, bind_ret, Hl.
      rewrite bind_assoc, bind_debug_assert by done.
      destruct (l_set_len w v _ 1 Ho) as (v1&Hs&Ho1&Hl1&Hk1).
      { rewrite app_length, fmap_length. simpl. lia. }
      rewrite bind_assoc. erewrite bind_Ret by exact Hs. rewrite bind_ret.
      destruct R as [|y R].
      + simpl. exists v1, w, (Ret st'), [x], []. split_and!; try done. split; [done|]. eauto.
      + simpl. replace (N.to_nat (N.of_nat (S (S (length R))) - 2)) with (length R) by lia.
        destruct (retain_loop_ok f R st' w v1 _ [x] 2 Ho1 Hl1) as (v'&w'&o&k&d&Hlp&Hrun&Hr'&Hf).
        { exists [Some y], rest. done. }
        exists v', w', o, (x :: k), d. rewrite Hrun. split_and!; try done. by eapply vk_trans_r.
    - (* discarded *)
      simpl. unfold retain_new, vx_get_len. rewrite !bind_assoc, bind_get_fst, bind_ret, Hl.
      rewrite bind_assoc, bind_debug_assert by done.
      destruct (l_set_len w v _ 0 Ho) as (v1&Hs&Ho1&Hl1&Hk1); [lia|].
      rewrite bind_assoc. erewrite bind_Ret by exact Hs. rewrite bind_assoc.
      assert (Hd := l_drop_at w v1 _ 0 x Ho1 eq_refl).
      unfold bind at 1. rewrite Hd. unfold drop_res.
      destruct (t_needs_drop && t_drop_panics x).
      + exists v1, (add_drop x w), (Panic PDrop), [], [x]. split_and!; try done.
        * split; [done|]. eexists. simpl. by apply vo_drop.
        * by eapply vk_trans_r; [|apply vk_drop].
      + rewrite bind_ret. simpl.
        replace (N.to_nat (N.of_nat (S (length R)) - 1)) with (length R) by lia.
        destruct (retain_loop_ok f R st' (add_drop x w) v1 _ [] 1 (vo_drop _ _ _ _ Ho1) Hl1)
          as (v'&w'&o&k&d&Hlp&Hrun&Hr'&Hf).
        { exists [Some x], rest. done. }
        exists v', w', o, k, (x :: d). rewrite Hrun. split_and!; try done.
        eapply vk_trans_r; [done|].
        by eapply (vk_trans _ _ _ _ _ _ [x] d); [apply vk_drop|].
    - exists v, w, (Panic PUser), (x :: R), []. split_and!; try done. apply vk_refl.
  Qed.

  (** ** dedup_by_key *)
  Fixpoint dedup_key_run {St K} (keq : K -> K -> bool) (key : St -> T -> St * T * option K)
    (st : St) (prev : K) (R : list T) : res St * list T * list T :=
    match R with
    | [] => (Ret st, [], [])
    | t :: R =>
        let '(st, t', r) := key st t in
        match r with
        | None => (Panic PUser, [], [])
        | Some k =>
            if keq prev k then
              if t_needs_drop && t_drop_panics t' then (Panic PDrop, [], [t'])
              else let '(o, ks, d) := dedup_key_run keq key st prev R in (o, ks, t' :: d)
            else let '(o, ks, d) := dedup_key_run keq key st k R in (o, t' :: ks, d)
        end
    end.

  Lemma dedup_key_loop_ok {St K} (keq : K -> K -> bool) (key : St -> T -> St * T * option K) R :
    forall st prev w v s KL read,
    vo w v s -> vx_len v = llen KL -> mid s KL read R ->
    exists v' w' o k d,
      dedup_key_loop keq key st prev (llen KL) read (length R) (v, w) = (o, (v', w')) /\
      dedup_key_run keq key st prev R = (o, k, d) /\ vrep w' v' (KL ++ k) /\ vk v w v' w' d.
  Proof.
    induction R as [|x R IH]; intros st prev w v s KL read Ho Hl Hm.
    - exists v, w, (Ret st), [], []. split_and!; try done; [|apply vk_refl].
      rewrite app_nil_r. split; [done|]. destruct (mid_prefix _ _ _ _ Hm) as [rest ->]. eauto.
    - simpl. erewrite bind_Ret by (eapply l_read; [done|by eapply mid_lookup]).
      destruct (key st x) as [[st' x'] r].
      pose proof (mid_len _ _ _ _ Hm) as [H1 H2]. simpl in H2.
      destruct (l_write w v s read x' Ho) as (v1&w1&Hw&Ho1&Hl1&Hk1); [lia|].
      erewrite bind_Ret by exact Hw. apply (mid_update _ _ _ _ x') in Hm. rewrite Hl in Hl1.
      destruct r as [k|].
      + destruct (keq prev k).
        * unfold discard_next.
          assert (Hd := l_drop_at w1 v1 _ read x' Ho1 (mid_lookup _ _ _ _ _ Hm)).
          unfold bind. rewrite Hd. unfold drop_res.
          destruct (t_needs_drop && t_drop_panics x').
          -- exists v1, (add_drop x' w1), (Panic PDrop), [], [x']. split_and!; try done.
             ++ rewrite app_nil_r. split; [done|]. destruct (mid_prefix _ _ _ _ Hm) as [rest E].
                exists rest. rewrite <-E. by apply vo_drop.
             ++ by eapply vk_trans_r; [|apply vk_drop].
          -- destruct (IH st' prev (add_drop x' w1) v1 _ KL (read + 1) (vo_drop _ _ _ _ Ho1) Hl1
                      (mid_discard _ _ _ _ _ Hm)) as (v'&w'&o&ks&d&Hlp&Hrun&Hr&Hf).
             exists v', w', o, ks, (x' :: d). rewrite Hrun. split_and!; try done.
             eapply vk_trans_r; [done|].
             by eapply (vk_trans _ _ _ _ _ _ [x'] d); [apply vk_drop|].
        * destruct (keep_next_ok w1 v1 _ KL read x' R Ho1 Hl1 Hm) as (v2&w2&s2&Hk&_&Ho2&Hl2&Hm2&Hf2).
          erewrite bind_Ret by exact Hk.
          replace (llen KL + 1) with (llen (KL ++ [x'])) by (rewrite app_length; simpl; lia).
          destruct (IH st' k w2 v2 s2 (KL ++ [x']) (read + 1) Ho2 Hl2 Hm2)
            as (v'&w'&o&ks&d&Hlp&Hrun&Hr&Hf).
          exists v', w', o, (x' :: ks), d. rewrite Hrun. rewrite <-app_assoc in Hr.
          split_and!; try done. eapply vk_trans_r; [done|]. by eapply vk_trans_r.
      + exists v1, w1, (Panic PUser), [], []. split_and!; try done.
        rewrite app_nil_r. split; [done|]. destruct (mid_prefix _ _ _ _ Hm) as [rest E].
        rewrite E in Ho1. eauto.
  Qed.

  (** What [dedup_by_key] does: the first element is kept, the second skipped. *)
  Definition dedup_key_all {St K} (keq : K -> K -> bool) (key : St -> T -> St * T * option K)
    (st : St) (xs : list T) : res St * list T * list T :=
    match xs with
    | [] => (Ret st, [], [])
    | x :: R =>
        let '(st, x', r) := key st x in
        match r with
        | None => (Panic PUser, x' :: R, [])
        | Some k =>
            let '(o, ks, d) := dedup_key_run keq key st k (tail R) in (o, x' :: ks, d)
        end
    end.

  Lemma retain_new_keep w v xs x R rest :
    xs = x :: R -> vx_len v = llen xs -> vo w v ((Some <$> xs) ++ rest) ->
    exists v1, retain_new false (v, w) = (Ret (1, 2, llen xs), (v1, w)) /\
      vo w v1 ((Some <$> xs) ++ rest) /\ vx_len v1 = 1 /\ vk v w v1 w [].
  Proof.
    intros -> Hl Ho. unfold retain_new, vx_get_len. rewrite bind_assoc, bind_get_fst, bind_ret, Hl.
    rewrite bind_debug_assert by done.
    destruct (l_set_len w v _ 1 Ho) as (v1&Hs&Ho1&Hl1&Hk1).
    { rewrite app_length, fmap_length. simpl. lia. }
    erewrite bind_Ret by exact Hs. eauto.
  Qed.

  Lemma dedup_by_key_ok {St K} (keq : K -> K -> bool) (key : St -> T -> St * T * option K) st w v xs :
    vrep w v xs ->
    exists v' w' o k d, dedup_by_key keq key st (v, w) = (o, (v', w')) /\
      dedup_key_all keq key st xs = (o, k, d) /\ vrep w' v' k /\ vk v w v' w' d.
  Proof.
    intros Hr. pose proof Hr as [Hl [rest Ho]]. unfold dedup_by_key. unfold vx_get_len at 1.
    rewrite bind_assoc, bind_get_fst, bind_ret, Hl.
    destruct xs as [|x R].
    { exists v, w, (Ret st), [], []. split_and!; try done. apply vk_refl. }
    destruct (N.eqb_spec (llen (x :: R)) 0) as [H|_]; [simpl in H; lia|].
    erewrite bind_Ret by (by eapply vread). simpl. destruct (key st x) as [[st' x'] r].
    destruct (l_write w v _ 0 x' Ho) as (v1&w1&Hw&Ho1&Hl1&Hk1).
    { rewrite app_length, fmap_length. simpl. lia. }
    erewrite bind_Ret by exact Hw. simpl in Ho1. rewrite Hl in Hl1.
    destruct r as [k|].
    - destruct (retain_new_keep w1 v1 (x' :: R) x' R rest eq_refl Hl1 Ho1) as (v2&Hn&Ho2&Hl2&Hk2).
      erewrite bind_Ret by exact Hn.
      destruct R as [|y R].
      + simpl. exists v2, w1, (Ret st'), [x'], []. split_and!; try done.
        * split; [done|]. eauto.
        * by eapply vk_trans_r.
      + simpl. replace (N.to_nat (N.of_nat (S (S (length R))) - 2)) with (length R) by lia.
        destruct (dedup_key_loop_ok keq key R st' k w1 v2 _ [x'] 2 Ho2 Hl2)
          as (v'&w'&o&ks&d&Hlp&Hrun&Hr'&Hf).
        { exists [Some y], rest. done. }
        exists v', w', o, (x' :: ks), d. rewrite Hrun. split_and!; try done.
        eapply vk_trans_r; [done|]. by eapply vk_trans_r.
    - exists v1, w1, (Panic PUser), (x' :: R), []. split_and!; try done. split; [done|]. by exists rest.
  Qed.

  (** ** dedup_by *)
  (** Loop with the comparison partner [kv] in a stale slot. *)
  Fixpoint dedup_run {St} (f : St -> T -> T -> St * (T * T) * option bool) (st : St) (kv : T)
    (R : list T) : res St * list T * list T :=
    match R with
    | [] => (Ret st, [], [])
    | t :: R =>
        let '(st, (t', kv'), r) := f st t kv in
        match r with
        | None => (Panic PUser, [], [])
        | Some true =>
            if t_needs_drop && t_drop_panics t' then (Panic PDrop, [], [t'])
            else let '(o, ks, d) := dedup_run f st kv' R in (o, ks, t' :: d)
        | Some false => let '(o, ks, d) := dedup_run f st t' R in (o, t' :: ks, d)
        end
    end.

  (** A slot between the kept elements and the read position. *)
  Lemma stale_update s K read R i x :
    mid s K read R -> llen K <= i -> i < read -> mid (<[N.to_nat i := Some x]> s) K read R.
  Proof.
    intros (G&rest&->&->&HG) H1 H2.
    exists (<[(N.to_nat i - length K)%nat := Some x]> G), rest. split_and!.
    - replace (N.to_nat i) with (length (Some <$> K) + (N.to_nat i - length K))%nat at 1
        by (rewrite fmap_length; lia).
      rewrite insert_app_r. f_equal. rewrite insert_app_l by lia. done.
    - by rewrite insert_length.
    - intros E. apply (f_equal length) in E. rewrite insert_length in E. by destruct G.
  Qed.

  Lemma dedup_loop_ok {St} (f : St -> T -> T -> St * (T * T) * option bool) R :
    forall st kv w v s K kept read,
    vo w v s -> vx_len v = llen K -> mid s K read R ->
    llen K <= kept -> kept < read -> s !! N.to_nat kept = Some (Some kv) ->
    exists v' w' o k d,
      dedup_by_loop f st kept (llen K) read (length R) (v, w) = (o, (v', w')) /\
      dedup_run f st kv R = (o, k, d) /\ vrep w' v' (K ++ k) /\ vk v w v' w' d.
  Proof.
    induction R as [|x R IH]; intros st kv w v s K kept read Ho Hl Hm Hk1 Hk2 Hkv.
    - exists v, w, (Ret st), [], []. split_and!; try done; [|apply vk_refl].
      rewrite app_nil_r. split; [done|]. destruct (mid_prefix _ _ _ _ Hm) as [rest ->]. eauto.
    - simpl. erewrite bind_Ret by (eapply l_read; [done|by eapply mid_lookup]).
      erewrite bind_Ret by (eapply l_read; [done|exact Hkv]).
      destruct (f st x kv) as [[st' [x' kv']] r].
      pose proof (mid_len _ _ _ _ Hm) as [H1 H2]. simpl in H2.
      destruct (l_write w v s read x' Ho) as (v1&w1&Hw1&Ho1&Hl1&Hf1); [lia|].
      erewrite bind_Ret by exact Hw1.
      apply (mid_update _ _ _ _ x') in Hm.
      destruct (l_write w1 v1 _ kept kv' Ho1) as (v2&w2&Hw2&Ho2&Hl2&Hf2);
        [rewrite insert_length; lia|].
      erewrite bind_Ret by exact Hw2. rewrite Hl1, Hl in Hl2.
      apply (stale_update _ _ _ _ kept kv') in Hm; [|done|done].
      set (s2 := <[N.to_nat kept:=Some kv']> _) in *.
      assert (s2 !! N.to_nat kept = Some (Some kv')) as Hkv2.
      { unfold s2. rewrite list_lookup_insert; [done|]. rewrite insert_length. lia. }
      destruct r as [[]|].
      + unfold discard_next.
        assert (Hd := l_drop_at w2 v2 _ read x' Ho2 (mid_lookup _ _ _ _ _ Hm)).
        unfold bind. rewrite Hd. unfold drop_res.
        destruct (t_needs_drop && t_drop_panics x').
        * exists v2, (add_drop x' w2), (Panic PDrop), [], [x']. split_and!; try done.
          -- rewrite app_nil_r. split; [done|]. destruct (mid_prefix _ _ _ _ Hm) as [rest E].
             exists rest. rewrite <-E. by apply vo_drop.
          -- eapply vk_trans_r; [done|]. by eapply vk_trans_r; [|apply vk_drop].
        * destruct (IH st' kv' (add_drop x' w2) v2 s2 K kept (read + 1) (vo_drop _ _ _ _ Ho2) Hl2
                      (mid_discard _ _ _ _ _ Hm)) as (v'&w'&o&ks&d&Hlp&Hrun&Hr&Hf); [lia|lia|done|].
          exists v', w', o, ks, (x' :: d). rewrite Hrun. split_and!; try done.
          eapply vk_trans_r; [done|]. eapply vk_trans_r; [done|].
          by eapply (vk_trans _ _ _ _ _ _ [x'] d); [apply vk_drop|].
      + destruct (keep_next_ok w2 v2 _ K read x' R Ho2 Hl2 Hm) as (v3&w3&s3&Hk&Hs3&Ho3&Hl3&Hm3&Hf3).
        erewrite bind_Ret by exact Hk.
        pose proof (mid_lookup _ _ _ _ _ Hm) as Hx'.
        assert (s3 !! N.to_nat read = Some (Some x')) as Hx3.
        { rewrite Hs3. rewrite list_lookup_insert_ne by lia. done. }
        replace (llen K + 1) with (llen (K ++ [x'])) by (rewrite app_length; simpl; lia).
        destruct (IH st' x' w3 v3 s3 (K ++ [x']) read (read + 1) Ho3 Hl3 Hm3)
          as (v'&w'&o&ks&d&Hlp&Hrun&Hr&Hf).
        { rewrite app_length. simpl. lia. } { lia. } { done. }
        exists v', w', o, (x' :: ks), d. rewrite Hrun. rewrite <-app_assoc in Hr.
        split_and!; try done. eapply vk_trans_r; [done|]. eapply vk_trans_r; [done|].
        by eapply vk_trans_r.
      + exists v2, w2, (Panic PUser), [], []. split_and!; try done.
        * rewrite app_nil_r. split; [done|]. destruct (mid_prefix _ _ _ _ Hm) as [rest E].
          rewrite E in Ho2. eauto.
        * by eapply vk_trans_r.
  Qed.

  (** While nothing but the first element has been kept, the partner is the first element itself. *)
  Fixpoint dedup_first {St} (f : St -> T -> T -> St * (T * T) * option bool) (st : St) (h : T)
    (R : list T) : res St * list T * list T :=
    match R with
    | [] => (Ret st, [h], [])
    | t :: R =>
        let '(st, (t', h'), r) := f st t h in
        match r with
        | None => (Panic PUser, [h'], [])
        | Some true =>
            if t_needs_drop && t_drop_panics t' then (Panic PDrop, [h'], [t'])
            else let '(o, ks, d) := dedup_first f st h' R in (o, ks, t' :: d)
        | Some false => let '(o, ks, d) := dedup_run f st t' R in (o, h' :: t' :: ks, d)
        end
    end.

  Lemma dedup_first_ok {St} (f : St -> T -> T -> St * (T * T) * option bool) R :
    forall st h w v s read,
    vo w v s -> vx_len v = 1 -> mid s [h] read R ->
    exists v' w' o k d,
      dedup_by_loop f st 0 1 read (length R) (v, w) = (o, (v', w')) /\
      dedup_first f st h R = (o, k, d) /\ vrep w' v' k /\ vk v w v' w' d.
  Proof.
    induction R as [|x R IH]; intros st h w v s read Ho Hl Hm.
    - exists v, w, (Ret st), [h], []. split_and!; try done; [|apply vk_refl].
      split; [done|]. destruct (mid_prefix _ _ _ _ Hm) as [rest ->]. eauto.
    - simpl. erewrite bind_Ret by (eapply l_read; [done|by eapply mid_lookup]).
      assert (s !! N.to_nat 0 = Some (Some h)) as Hh.
      { destruct Hm as (G&rest&->&_). done. }
      erewrite bind_Ret by (eapply l_read; [done|exact Hh]).
      destruct (f st x h) as [[st' [x' h']] r].
      pose proof (mid_len _ _ _ _ Hm) as [H1 H2]. simpl in H1, H2.
      destruct (l_write w v s read x' Ho) as (v1&w1&Hw1&Ho1&Hl1&Hf1); [lia|].
      erewrite bind_Ret by exact Hw1.
      apply (mid_update _ _ _ _ x') in Hm.
      destruct (l_write w1 v1 _ 0 h' Ho1) as (v2&w2&Hw2&Ho2&Hl2&Hf2);
        [rewrite insert_length; lia|].
      erewrite bind_Ret by exact Hw2. rewrite Hl1, Hl in Hl2.
      set (s2 := <[N.to_nat 0:=Some h']> _) in *.
      assert (mid s2 [h'] read (x' :: R)) as Hm2.
      { destruct Hm as (G&rest&E&Hrd&HG). exists G, rest. split_and!; try done.
        unfold s2. rewrite E. done. }
      destruct r as [[]|].
      + unfold discard_next.
        assert (Hd := l_drop_at w2 v2 _ read x' Ho2 (mid_lookup _ _ _ _ _ Hm2)).
        unfold bind. rewrite Hd. unfold drop_res.
        destruct (t_needs_drop && t_drop_panics x').
        * exists v2, (add_drop x' w2), (Panic PDrop), [h'], [x']. split_and!; try done.
          -- split; [done|]. destruct (mid_prefix _ _ _ _ Hm2) as [rest E].
             exists rest. rewrite <-E. by apply vo_drop.
          -- eapply vk_trans_r; [done|]. by eapply vk_trans_r; [|apply vk_drop].
        * destruct (IH st' h' (add_drop x' w2) v2 s2 (read + 1) (vo_drop _ _ _ _ Ho2) Hl2
                      (mid_discard _ _ _ _ _ Hm2)) as (v'&w'&o&ks&d&Hlp&Hrun&Hr&Hf).
          exists v', w', o, ks, (x' :: d). rewrite Hrun. split_and!; try done.
          eapply vk_trans_r; [done|]. eapply vk_trans_r; [done|].
          by eapply (vk_trans _ _ _ _ _ _ [x'] d); [apply vk_drop|].
      + destruct (keep_next_ok w2 v2 _ [h'] read x' R Ho2 Hl2 Hm2) as (v3&w3&s3&Hk&Hs3&Ho3&Hl3&Hm3&Hf3).
        erewrite bind_Ret by exact Hk.
        pose proof (mid_lookup _ _ _ _ _ Hm2) as Hx'.
        assert (s3 !! N.to_nat read = Some (Some x')) as Hx3.
        { rewrite Hs3. rewrite list_lookup_insert_ne by (simpl; lia). done. }
        destruct (dedup_loop_ok f R st' x' w3 v3 s3 [h'; x'] read (read + 1) Ho3 Hl3 Hm3)
          as (v'&w'&o&ks&d&Hlp&Hrun&Hr&Hf); [simpl; lia|lia|done|].
        exists v', w', o, (h' :: x' :: ks), d. rewrite Hrun.
        split_and!; try done. eapply vk_trans_r; [done|]. eapply vk_trans_r; [done|].
        by eapply vk_trans_r.
      + exists v2, w2, (Panic PUser), [h'], []. split_and!; try done.
        * split; [done|]. destruct (mid_prefix _ _ _ _ Hm2) as [rest E]. rewrite E in Ho2. eauto.
        * by eapply vk_trans_r.
  Qed.

  Definition dedup_all {St} (f : St -> T -> T -> St * (T * T) * option bool) (st : St)
    (xs : list T) : res St * list T * list T :=
    match xs with
    | [] => (Ret st, [], [])
    | x :: R => dedup_first f st x (tail R)
    end.

  Lemma dedup_by_ok {St} (f : St -> T -> T -> St * (T * T) * option bool) st w v xs :
    vrep w v xs ->
    exists v' w' o k d, dedup_by f st (v, w) = (o, (v', w')) /\
      dedup_all f st xs = (o, k, d) /\ vrep w' v' k /\ vk v w v' w' d.
  Proof.
    intros Hr. pose proof Hr as [Hl [rest Ho]]. unfold dedup_by. unfold vx_get_len at 1.
    rewrite bind_assoc, bind_get_fst, bind_ret, Hl.
    destruct xs as [|x R].
    { exists v, w, (Ret st), [], []. split_and!; try done. apply vk_refl. }
    destruct (N.eqb_spec (llen (x :: R)) 0) as [H|_]; [simpl in H; lia|].
    destruct (retain_new_keep w v (x :: R) x R rest eq_refl Hl Ho) as (v2&Hn&Ho2&Hl2&Hk2).
    erewrite bind_Ret by exact Hn. destruct R as [|y R].
    - simpl. exists v2, w, (Ret st), [x], []. split_and!; try done. split; [done|]. eauto.
    - simpl. replace (N.to_nat (N.of_nat (S (S (length R))) - 2)) with (length R) by lia.
      destruct (dedup_first_ok f R st x w v2 _ 2 Ho2 Hl2) as (v'&w'&o&ks&d&Hlp&Hrun&Hr'&Hf).
      { exists [Some y], rest. done. }
      exists v', w', o, ks, d. split_and!; try done. by eapply vk_trans_r.
  Qed.

  (** ** resize (growing) *)
  (** Values produced by a callback called [n] times starting with call [k]; [None] at a panic. *)
  Fixpoint produce (h : nat -> option T) (k n : nat) : list T * bool :=
    match n with
    | O => ([], true)
    | S n => match h k with
             | None => ([], false)
             | Some x => let '(l, b) := produce h (S k) n in (x :: l, b)
             end
    end.

  Lemma push_next_ok (cap : V -> N) (next : nat -> MX T) (h : nat -> option T) n : 
    (forall w v xs x, vrep w v xs -> llen xs < cap v ->
      exists v' w', vx_push x (v, w) = (Ret tt, (v', w')) /\ vrep w' v' (xs ++ [x]) /\
        vk v w v' w' [] /\ cap v' = cap v) ->
    (forall k st, next k st = (match h k with Some x => Ret x | None => Panic PUser end, st)) ->
    forall k w v xs, vrep w v xs -> llen xs + N.of_nat n <= cap v ->
    exists v' w', push_next next k n (v, w) =
        ((if snd (produce h k n) then Ret tt else Panic PUser), (v', w')) /\
      vrep w' v' (xs ++ fst (produce h k n)) /\ vk v w v' w' [] /\ cap v' = cap v.
  Proof.
    intros Hpush Hnext. induction n as [|n IH]; intros k w v xs Hr Hc.
    - exists v, w. rewrite app_nil_r. split_and!; try done. apply vk_refl.
    - simpl. unfold bind at 1. rewrite Hnext. destruct (h k) as [x|].
      + destruct (Hpush w v xs x Hr) as (v1&w1&Hp&Hr1&Hk1&Hc1); [lia|].
        erewrite bind_Ret by exact Hp.
        destruct (IH (S k) w1 v1 (xs ++ [x]) Hr1) as (v'&w'&Hm&Hr'&Hk'&Hc').
        { rewrite app_length. simpl. lia. }
        exists v', w'. destruct (produce h (S k) n) as [l b]. simpl in *.
        rewrite <-app_assoc in Hr'. split_and!; try done; [by eapply vk_trans_r|congruence].
      + exists v, w. rewrite app_nil_r. split_and!; try done. apply vk_refl.
  Qed.
End vecx.

(** ** [Vec] satisfies the laws. *)
Section vec_laws.
  Context {EN : Env} {T : Type} {EL : Elem T} (Hz : 0 < t_size).
  Notation W := (world T).

  Definition vec_laws : VecxLaws vec.
  Proof.
    refine {| vo := owns; vk := keeps |}.
    - apply (owns_bound Hz).
    - apply keeps_refl.
    - apply keeps_trans.
    - intros w v s x. apply (owns_drops w v s [x]).
    - intros v w x. apply (keeps_drops v w [x]).
    - intros w v s n Ho Hn. exists (Vec (v_ptr v) n). split_and!; try done.
      + by eapply (vec_set_len_eq Hz).
      + apply keeps_len.
    - intros w v s i x Ho Hi. simpl. rewrite bind_get_fst. apply on_snd_Ret.
      assert (s <> []) by (by intros ->).
      eapply read_at_slots; [done|by apply owns_slots|done].
    - intros w v s i x Ho Hi. simpl.
      assert (Hne : s <> []) by (intros ->; simpl in Hi; lia).
      destruct (owns_set_slots Hz w v s (<[N.to_nat i:=Some x]> s) Ho) as (Ho'&?&?&?&?);
        [by rewrite insert_length|done|].
      eexists _, _. split_and!.
      + rewrite bind_get_fst. apply on_snd_Ret. apply write_at_slots; [done|by apply owns_slots|done].
      + done.
      + done.
      + unfold keeps. rewrite app_nil_r. split_and!; try done. lia.
    - intros w v s i x Ho Hi. simpl. rewrite bind_get_fst. apply on_snd_Ret.
      assert (s <> []) by (by intros ->).
      eapply drop_at_slots; [done|by apply owns_slots|done].
    - intros w v s i j x Ho Hi Hj Hij. simpl.
      assert (Hne : s <> []) by (intros ->; simpl in Hj; lia).
      pose proof (lookup_lt_Some _ _ _ Hi) as Hlt.
      assert (copied s i s j 1 = <[N.to_nat j := Some x]> s) as Hcp.
      { unfold copied. rewrite insert_take_drop by lia. f_equal.
        erewrite drop_S by exact Hi. simpl. by rewrite Nat.add_1_r. }
      destruct (owns_set_slots Hz w v s (<[N.to_nat j:=Some x]> s) Ho) as (Ho'&?&?&?&?);
        [by rewrite insert_length|done|].
      eexists _, _. split_and!.
      + rewrite bind_get_fst. apply on_snd_Ret.
        erewrite copy_no_slots; [rewrite Hcp; reflexivity|done|by apply owns_slots|by apply owns_slots|lia|lia|].
        right. lia.
      + done.
      + done.
      + unfold keeps. rewrite app_nil_r. split_and!; try done. lia.
  Defined.
End vec_laws.
