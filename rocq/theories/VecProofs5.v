(** Vec: resize, retain, dedup, drain (exact behaviour). *)
From Verif Require Export VecxProofs.
From Coq Require Import ZifyBool ZifyNat ZifyN.

Section vec_proofs5.
  Context {EN : Env} {T : Type} {EL : Elem T} (Hz : 0 < t_size).
  Notation W := (world T).
  Notation MV := (M (vec * W)).
  Implicit Types (w : W) (v : vec) (s : list (option T)) (xs : list T).

  Lemma vec_push_law w v xs x :
    rep w v xs -> llen xs < vcap v ->
    exists v' w', vec_push x (v, w) = (Ret tt, (v', w')) /\ rep w' v' (xs ++ [x]) /\
      keeps v w v' w' [] /\ vcap v' = vcap v.
  Proof.
    intros Hr Hc. destruct (push_within Hz w v xs x Hr Hc) as (v'&w'&?&?&?&?&_). eauto 10.
  Qed.

  Lemma vec_push_next_ok (next : nat -> MV T) (h : nat -> option T) n k w v xs :
    (forall k st, next k st = (match h k with Some x => Ret x | None => Panic PUser end, st)) ->
    rep w v xs -> llen xs + N.of_nat n <= vcap v ->
    exists v' w', push_next next k n (v, w) =
        ((if snd (produce h k n) then Ret tt else Panic PUser), (v', w')) /\
      rep w' v' (xs ++ fst (produce h k n)) /\ keeps v w v' w' [] /\ vcap v' = vcap v.
  Proof.
    intros Hn. apply (push_next_ok (L := vec_laws Hz) vcap next h n vec_push_law Hn).
  Qed.

  Lemma produce_const_Some x n : forall k, produce (fun _ => Some x : option T) k n = (replicate n x, true).
  Proof. induction n as [|n IH]; intros k; simpl; [done|]. by rewrite IH. Qed.
  Lemma produce_const_None n k :
    produce (fun _ => None : option T) k n = ([], match n with O => true | _ => false end).
  Proof. by destruct n. Qed.
  Lemma produce_S (h : nat -> option T) n : forall k,
    produce h k (S n) =
      match snd (produce h k n), h (k + n)%nat with
      | true, Some x => (fst (produce h k n) ++ [x], true)
      | _, _ => (fst (produce h k n), false)
      end.
  Proof.
    induction n as [|n IH]; intros k.
    - simpl. rewrite Nat.add_0_r. by destruct (h k).
    - change (produce h k (S (S n))) with
        (match h k with None => ([], false)
         | Some x => let '(l, b) := produce h (S k) (S n) in (x :: l, b) end).
      rewrite IH. simpl. destruct (h k) as [x|]; [|done].
      replace (k + S n)%nat with (S k + n)%nat by lia.
      destruct (produce h (S k) n) as [l []]; simpl; [|done]. by destruct (h (S (k + n))).
  Qed.

  (** Truncating, whatever the destructors do. *)
  Lemma truncate_gen w v xs n :
    rep w v xs ->
    exists v' w', vec_truncate n (v, w) = (settle drop_panics (Ret tt) (drop (N.to_nat n) xs), (v', w')) /\
      rep w' v' (take (N.to_nat n) xs) /\ v_ptr v' = v_ptr v /\
      (settle drop_panics (Ret tt) (drop (N.to_nat n) xs) <> Abort ->
       keeps v w v' w' (drop (N.to_nat n) xs)).
  Proof.
    intros Hr. destruct (truncate_ok Hz w v xs n Hr) as (v'&He&Hr'&Hp). rewrite settle_glue in He.
    eexists v', _. split_and!; [exact He| |done|].
    - destruct Hr' as [? [rest Ho]]. split; [done|]. exists rest. by apply owns_drops.
    - intros Ha. rewrite (glue_all _ Ha).
      eapply (keeps_trans _ _ v' w _ _ [] _); [|apply keeps_drops].
      unfold keeps, vrest, vdata. rewrite Hp, app_nil_r. split_and!; done.
  Qed.
  (** A cleanup that destroys one more value. *)
  Lemma finally_settle {S} (m : M S unit) c (st st1 st2 : S) l x :
    m st = (settle drop_panics (Ret tt) l, st1) -> c st1 = (drop_res x, st2) ->
    exists st3, finally m c st = (settle drop_panics (Ret tt) (l ++ [x]), st3) /\
      (settle drop_panics (Ret tt) (l ++ [x]) <> (Abort : res unit) -> st3 = st2) /\ (st3 = st1 \/ st3 = st2).
  Proof.
    intros Hm Hc. rewrite settle_ret in Hm |- *. rewrite culprits_app. simpl.
    unfold drop_res in Hc. fold (drop_panics x) in Hc.
    unfold finally, bind, on_unwind. rewrite Hm.
    destruct (culprits drop_panics l) as [|y [|z l']]; simpl; destruct (drop_panics x); rewrite ?Hc;
      eexists; (split; [reflexivity|]); (split; [done|auto]).
  Qed.

  (** Truncating without panicking destructors. *)
  Lemma truncate_quiet w v xs n :
    rep w v xs -> no_drop_panic ->
    exists v' w', vec_truncate n (v, w) = (Ret tt, (v', w')) /\
      rep w' v' (take (N.to_nat n) xs) /\ keeps v w v' w' (drop (N.to_nat n) xs) /\
      v_ptr v' = v_ptr v.
  Proof.
    intros Hr Hd. destruct (truncate_ok Hz w v xs n Hr) as (v'&He&Hr'&Hp).
    rewrite drops_glue_ok in He by done. simpl in He.
    exists v', (add_drops (drop (N.to_nat n) xs) w). split_and!; try done.
    - destruct Hr' as [? [rest Ho]]. split; [done|]. exists rest. by apply owns_drops.
    - eapply (keeps_trans _ _ v' w _ _ [] _); [|apply keeps_drops].
      unfold keeps, vrest, vdata. rewrite Hp, app_nil_r. split_and!; done.
  Qed.

  Lemma resize_val_gen w v xs n x :
    rep w v xs -> fits n ->
    exists r v' w', resize_val n x (v, w) = (r, (v', w')) /\
      vcap v <= vcap v' <= N.max (vcap v) n /\
      ((n <= llen xs /\ r = settle drop_panics (Ret tt) (drop (N.to_nat n) xs ++ [x]) /\
        (r <> Abort -> rep w' v' (take (N.to_nat n) xs) /\
         keeps v w v' w' (drop (N.to_nat n) xs ++ [x])))
       \/ (llen xs < n /\ r = Ret tt /\ exists ys,
           (ys = [] /\ n = llen xs + 1 \/
            exists y, t_clone x = Some y /\ ys = replicate (N.to_nat (n - llen xs - 1)) y) /\
           rep w' v' (xs ++ ys ++ [x]) /\ keeps v w v' w' [])
       \/ (llen xs + 1 < n /\ r = settle drop_panics (Panic PUser) [x] /\ t_clone x = None /\ rep w' v' xs /\
           keeps v w v' w' [x])
       \/ (llen xs < n /\ r = settle drop_panics (Panic PUnwrap) [x] /\ rep w' v' xs /\ keeps v w v' w' [x] /\ v' = v /\
           refuses)).
  Proof.
    intros Hr Hf. pose proof Hr as [Hl _]. unfold resize_val, do_resize, vx_get_len.
    rewrite bind_assoc, bind_get_fst, bind_ret. simpl. rewrite Hl.
    destruct (N.leb_spec n (llen xs)) as [Hn|Hn].
    - destruct (truncate_gen w v xs n Hr) as (v1&w1&Ht&Hr1&Hp1&Hk1).
      destruct (finally_settle (vec_truncate n) (on_snd (drop_val x)) (v, w) _ (v1, add_drop x w1) _ x Ht)
        as ([v2 w2]&He&Hna&Heq).
      { apply on_snd_Ret, drop_val_eq. }
      eexists _, v2, w2. split; [exact He|].
      split; [destruct Heq as [[= -> ->]|[= -> ->]]; unfold vcap; rewrite Hp1; lia|].
      left. split_and!; [done|done|]. intros Hab. specialize (Hna Hab). injection Hna as -> ->.
      split; [by apply rep_add_drop|]. apply keeps_add_drop. apply Hk1. intros Hx. apply Hab.
      rewrite settle_ret in Hx |- *. rewrite culprits_app.
      by destruct (culprits drop_panics (drop (N.to_nat n) xs)) as [|? []].
    - rewrite bind_usub by lia.
      destruct (reserve_exact_ok Hz w v xs (n - llen xs)) as (r&v1&w1&He&Hk1&Hr1&Hc); [done| |].
      { by replace (llen xs + (n - llen xs)) with n by lia. }
      destruct (rep_cap Hz _ _ _ Hr) as [Hc0 _].
      replace (llen xs + (n - llen xs)) with n in Hc by lia.
      destruct Hc as [(->&Hc1&Hc2&Hc3&Hc4)|(->&->&Hc1&Hc2)].
      2: { eexists _, v, (add_drop x w1). split.
           { apply bind_settle_panic. eapply on_unwind_settle_glue.
             - eapply bind_Panic. exact He.
             - apply on_snd_Ret. rewrite drop_val_eq, settle_drop_res. reflexivity. }
           split; [lia|]. do 3 right. fin. }
      assert (vcap v <= vcap v1 <= N.max (vcap v) n) as Hcap.
      { destruct (N.le_gt_cases n (vcap v)) as [H|H]; [destruct (Hc3 H) as [-> _]|rewrite (Hc4 H)]; lia. }
      destruct (vec_push_next_ok (fun _ => on_snd (clone_val x)) (fun _ => t_clone x)
                  (N.to_nat (n - llen xs - 1)) 0 w1 v1 xs) as (v2&w2&Hp&Hr2&Hk2&Hc').
      { intros k [v0 w0]. unfold on_snd, clone_val. simpl. by destruct (t_clone x). }
      { done. } { lia. }
      assert (Hk : keeps v w v2 w2 []) by (by eapply (keeps_trans _ _ v1 w1 _ _ [] [])).
      destruct (t_clone x) as [y|] eqn:Hcl; cycle 1.
      { rewrite produce_const_None in Hp, Hr2. simpl in Hr2. rewrite app_nil_r in Hr2.
        destruct (decide (n = llen xs + 1)) as [->|Hn1]; cycle 1.
        - destruct (N.to_nat (n - llen xs - 1)) as [|m] eqn:Em; [lia|].
          eexists _, v2, (add_drop x w2). split.
          { apply bind_settle_panic. eapply on_unwind_settle_glue.
            - erewrite bind_Ret by exact He. rewrite bind_usub by lia. rewrite Em.
              eapply bind_Panic. exact Hp.
            - apply on_snd_Ret. rewrite drop_val_eq, settle_drop_res. reflexivity. }
          split; [lia|]. do 2 right. left. fin.
        - replace (llen xs + 1 - llen xs - 1) with 0 in * by lia.
          destruct (vec_push_law w2 v2 xs x Hr2) as (v3&w3&Hp3&Hr3&Hk3&Hc3'); [lia|].
          eexists _, v3, w3. split.
          { erewrite bind_Ret.
            2: { apply on_unwind_Ret. erewrite bind_Ret by exact He. rewrite bind_usub by lia.
                 erewrite bind_Ret.
                 2: { replace (llen xs + 1 - llen xs - 1) with 0 by lia. exact Hp. }
                 reflexivity. }
            rewrite bind_ret. exact Hp3. }
          split; [lia|]. right. left. split_and!; [lia|done|]. exists []. split_and!; [by left|done|].
          by eapply (keeps_trans _ _ v2 w2 _ _ [] []). }
      rewrite produce_const_Some in Hp, Hr2. simpl in Hp, Hr2.
      destruct (vec_push_law w2 v2 _ x Hr2) as (v3&w3&Hp3&Hr3&Hk3&Hc3').
      { rewrite app_length, replicate_length. lia. }
      eexists _, v3, w3. split.
      { erewrite bind_Ret.
        2: { apply on_unwind_Ret. erewrite bind_Ret by exact He. rewrite bind_usub by lia.
             erewrite bind_Ret by exact Hp. reflexivity. }
        rewrite bind_ret. exact Hp3. }
      split; [lia|]. right. left. split_and!; [lia|done|].
      exists (replicate (N.to_nat (n - llen xs - 1)) y). split_and!; [by right; eauto| |].
      + by rewrite app_assoc.
      + by eapply (keeps_trans _ _ v2 w2 _ _ [] []).
  Qed.

  Lemma resize_val_ok w v xs n x :
    rep w v xs -> no_drop_panic -> fits n ->
    exists r v' w', resize_val n x (v, w) = (r, (v', w')) /\
      vcap v <= vcap v' <= N.max (vcap v) n /\
      ((n <= llen xs /\ r = Ret tt /\ rep w' v' (take (N.to_nat n) xs) /\
        keeps v w v' w' (drop (N.to_nat n) xs ++ [x]))
       \/ (llen xs < n /\ r = Ret tt /\ exists ys,
           (ys = [] /\ n = llen xs + 1 \/
            exists y, t_clone x = Some y /\ ys = replicate (N.to_nat (n - llen xs - 1)) y) /\
           rep w' v' (xs ++ ys ++ [x]) /\ keeps v w v' w' [])
       \/ (llen xs + 1 < n /\ r = Panic PUser /\ t_clone x = None /\ rep w' v' xs /\
           keeps v w v' w' [x])
       \/ (llen xs < n /\ r = Panic PUnwrap /\ rep w' v' xs /\ keeps v w v' w' [x] /\ v' = v /\
           refuses)).
  Proof.
    intros Hr Hd Hf. destruct (resize_val_gen w v xs n x Hr Hf) as (r&v'&w'&He&Hc&Hcase).
    rewrite !settle_quiet in Hcase by (by apply culprits_quiet).
    exists r, v', w'. split; [done|]. split; [done|].
    destruct Hcase as [(?&->&Hx)|Hcase]; [|by right]. left. destruct Hx; done.
  Qed.

  Lemma resize_fn_gen w v xs n g :
    rep w v xs -> fits n ->
    exists r v' w', resize_fn n g (v, w) = (r, (v', w')) /\
      vcap v <= vcap v' <= N.max (vcap v) n /\
      ((n <= llen xs /\ r = settle drop_panics (Ret tt) (drop (N.to_nat n) xs) /\
        (r <> Abort -> rep w' v' (take (N.to_nat n) xs) /\ keeps v w v' w' (drop (N.to_nat n) xs)))
       \/ (llen xs < n /\
           r = (if snd (produce g 0 (N.to_nat (n - llen xs))) then Ret tt else Panic PUser) /\
           rep w' v' (xs ++ fst (produce g 0 (N.to_nat (n - llen xs)))) /\ keeps v w v' w' [])
       \/ (llen xs < n /\ r = Panic PUnwrap /\ rep w' v' xs /\ keeps v w v' w' [] /\ v' = v /\
           refuses)).
  Proof.
    intros Hr Hf. pose proof Hr as [Hl _]. unfold resize_fn, do_resize, vx_get_len.
    rewrite bind_assoc, bind_get_fst, bind_ret. simpl. rewrite Hl.
    destruct (N.leb_spec n (llen xs)) as [Hn|Hn].
    - destruct (truncate_gen w v xs n Hr) as (v1&w1&Ht&Hr1&Hp1&Hk1).
      eexists _, v1, w1. split.
      { unfold finally, bind, on_unwind. rewrite Ht, settle_ret.
        instantiate (1 := settle drop_panics (Ret tt) (drop (N.to_nat n) xs)). rewrite settle_ret.
        by destruct (culprits drop_panics (drop (N.to_nat n) xs)) as [|? []]. }
      split; [unfold vcap; rewrite Hp1; lia|].
      left. split_and!; try done. intros Hab. auto.
    - rewrite bind_usub by lia.
      destruct (reserve_exact_ok Hz w v xs (n - llen xs)) as (r&v1&w1&He&Hk1&Hr1&Hc); [done| |].
      { by replace (llen xs + (n - llen xs)) with n by lia. }
      destruct (rep_cap Hz _ _ _ Hr) as [Hc0 _].
      replace (llen xs + (n - llen xs)) with n in Hc by lia.
      destruct Hc as [(->&Hc1&Hc2&Hc3&Hc4)|(->&->&Hc1&Hc2)].
      2: { eexists _, v, w1. split.
           { unfold bind at 1. erewrite on_unwind_Panic; [reflexivity| |reflexivity].
             eapply bind_Panic. exact He. }
           split; [lia|]. do 2 right. fin. }
      assert (vcap v <= vcap v1 <= N.max (vcap v) n) as Hcap.
      { destruct (N.le_gt_cases n (vcap v)) as [H|H]; [destruct (Hc3 H) as [-> _]|rewrite (Hc4 H)]; lia. }
      destruct (vec_push_next_ok (call_fn g) g
                  (N.to_nat (n - llen xs - 1)) 0 w1 v1 xs) as (v2&w2&Hp&Hr2&Hk2&Hc').
      { intros k st. unfold call_fn. by destruct (g k). }
      { done. } { lia. }
      assert (Hk : keeps v w v2 w2 []) by (by eapply (keeps_trans _ _ v1 w1 _ _ [] [])).
      replace (N.to_nat (n - llen xs)) with (S (N.to_nat (n - llen xs - 1))) by lia.
      set (m := N.to_nat (n - llen xs - 1)) in *. rewrite produce_S. simpl.
      assert (length (fst (produce g 0 m)) <= m)%nat as Hlen.
      { clear. generalize 0%nat. induction m as [|m IH]; intros k; simpl; [lia|].
        destruct (g k); simpl; [|lia]. specialize (IH (S k)). destruct (produce g (S k) m). simpl in *. lia. }
      assert (length (fst (produce g 0 m)) <= m)%nat as Hlen' by done.
      destruct (produce g 0 m) as [l []] eqn:Ep; simpl in *.
      + destruct (g m) as [y|] eqn:Eg; cycle 1.
        * eexists _, v2, w2. split.
          { erewrite bind_Ret.
            2: { apply on_unwind_Ret. erewrite bind_Ret by exact He. rewrite bind_usub by lia.
                 fold m. erewrite bind_Ret by exact Hp. reflexivity. }
            unfold m in Eg. unfold call_fn at 1. fold m. fold m in Eg. rewrite Eg. reflexivity. }
          split; [lia|]. right. left. split_and!; done.
        * destruct (vec_push_law w2 v2 _ y Hr2) as (v3&w3&Hp3&Hr3&Hk3&Hc3').
          { rewrite app_length. lia. }
          eexists _, v3, w3. split.
          { erewrite bind_Ret.
            2: { apply on_unwind_Ret. erewrite bind_Ret by exact He. rewrite bind_usub by lia.
                 fold m. erewrite bind_Ret by exact Hp. reflexivity. }
            unfold call_fn at 1. fold m. rewrite Eg. rewrite bind_ret. exact Hp3. }
          split; [lia|]. right. left. split_and!; try done.
          -- by rewrite <-app_assoc in Hr3.
          -- by eapply (keeps_trans _ _ v2 w2 _ _ [] []).
      + eexists _, v2, w2. split.
        { unfold bind at 1. erewrite on_unwind_Panic; [reflexivity| |reflexivity].
          erewrite bind_Ret by exact He. rewrite bind_usub by lia. fold m.
          eapply bind_Panic. exact Hp. }
        split; [lia|]. right. left. split_and!; done.
  Qed.

  Lemma resize_fn_ok w v xs n g :
    rep w v xs -> no_drop_panic -> fits n ->
    exists r v' w', resize_fn n g (v, w) = (r, (v', w')) /\
      vcap v <= vcap v' <= N.max (vcap v) n /\
      ((n <= llen xs /\ r = Ret tt /\ rep w' v' (take (N.to_nat n) xs) /\
        keeps v w v' w' (drop (N.to_nat n) xs))
       \/ (llen xs < n /\
           r = (if snd (produce g 0 (N.to_nat (n - llen xs))) then Ret tt else Panic PUser) /\
           rep w' v' (xs ++ fst (produce g 0 (N.to_nat (n - llen xs)))) /\ keeps v w v' w' [])
       \/ (llen xs < n /\ r = Panic PUnwrap /\ rep w' v' xs /\ keeps v w v' w' [] /\ v' = v /\
           refuses)).
  Proof.
    intros Hr Hd Hf. destruct (resize_fn_gen w v xs n g Hr Hf) as (r&v'&w'&He&Hc&Hcase).
    rewrite !settle_quiet in Hcase by (by apply culprits_quiet).
    exists r, v', w'. split; [done|]. split; [done|].
    destruct Hcase as [(?&->&Hx)|Hcase]; [|by right]. left. destruct Hx; done.
  Qed.

  (** The generic results, for [Vec]. *)
  Lemma vec_retain_ok {St} (f : St -> T -> St * option bool) st w v xs :
    rep w v xs ->
    exists v' w' o k d, retain f st (v, w) = (o, (v', w')) /\ retain_all f st xs = (o, k, d) /\
      rep w' v' k /\ keeps v w v' w' d.
  Proof. apply (retain_ok (L := vec_laws Hz)). Qed.
  Lemma vec_dedup_by_key_ok {St K} (keq : K -> K -> bool) (key : St -> T -> St * T * option K) st w v xs :
    rep w v xs ->
    exists v' w' o k d, dedup_by_key keq key st (v, w) = (o, (v', w')) /\
      dedup_key_all keq key st xs = (o, k, d) /\ rep w' v' k /\ keeps v w v' w' d.
  Proof. apply (dedup_by_key_ok (L := vec_laws Hz)). Qed.
  Lemma vec_dedup_by_ok {St} (f : St -> T -> T -> St * (T * T) * option bool) st w v xs :
    rep w v xs ->
    exists v' w' o k d, dedup_by f st (v, w) = (o, (v', w')) /\
      dedup_all f st xs = (o, k, d) /\ rep w' v' k /\ keeps v w v' w' d.
  Proof. apply (dedup_by_ok (L := vec_laws Hz)). Qed.

  (** drain: any non-empty range panics, leaving only the elements before it. *)
  Lemma drain_nonempty w v xs a b :
    rep w v xs -> a < b -> b <= llen xs ->
    exists v' w', drain_new (Included a) (Excluded b) (v, w) = (Panic PIndex, (v', w')) /\
      rep w' v' (take (N.to_nat a) xs) /\ keeps v w v' w' [] /\ v_ptr v' = v_ptr v.
  Proof.
    intros Hr Hab Hb. pose proof Hr as [Hl [rest Ho]]. unfold drain_new. rewrite bind_ret.
    unfold vx_get_len. rewrite bind_assoc, bind_get_fst, !bind_ret. simpl.
    assert (Hc : llen xs <= llen ((Some <$> xs) ++ rest)).
    { rewrite app_length, fmap_length. lia. }
    erewrite bind_Ret by (eapply (vec_set_len_eq Hz); [exact Ho|lia]).
    rewrite bind_assoc, bind_get_fst, bind_ret. simpl.
    destruct (N.leb_spec b a); [lia|]. rewrite andb_false_r.
    eexists _, _. split_and!; [reflexivity|apply (rep_take Hz); [done|lia]|apply keeps_len|done].
  Qed.
End vec_proofs5.
