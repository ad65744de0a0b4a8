(** Proofs about [Vec], continued: conversions, by-value iteration, giving storage away. *)
From Verif Require Export VecSettle.
From Coq Require Import ZifyBool ZifyNat ZifyN.

Section vec4.
  Context {EN : Env} {T : Type} {EL : Elem T} (Hz : 0 < t_size).
  Notation W := (world T).
  Notation MV := (M (vec * W)).
  Implicit Types (w : W) (v : vec) (s : list (option T)) (xs : list T).

  (** A vector came to life: the heap apart from its storage is the heap before. *)
  Definition born (w : W) (v : vec) (w' : W) (ds : list T) : Prop :=
    vrest v w' = heap w /\ drops w' = drops w ++ ds /\ cur_scope w' = cur_scope w /\
    next_id w <= next_id w' /\ wok w'.
  (** A vector's storage has been released. *)
  Definition gone (v : vec) (w w' : W) (ds : list T) : Prop :=
    heap w' = vrest v w /\ drops w' = drops w ++ ds /\ cur_scope w' = cur_scope w /\
    next_id w <= next_id w' /\ wok w'.
  (** No memory was gained or lost. *)
  Definition still (w w' : W) (ds : list T) : Prop :=
    heap w' = heap w /\ drops w' = drops w ++ ds /\ cur_scope w' = cur_scope w /\
    next_id w <= next_id w' /\ wok w'.

  Lemma born_keeps w v w1 v' w' d1 d2 :
    born w v w1 d1 -> keeps v w1 v' w' d2 -> wok w' -> born w v' w' (d1 ++ d2).
  Proof.
    intros (H1&H2&H3&?&?) (H4&H5&H6&?) ?. unfold born. split_and!; try congruence; [|lia].
    by rewrite H5, H2, app_assoc.
  Qed.
  Lemma born_gone w v w1 w' d1 d2 : born w v w1 d1 -> gone v w1 w' d2 -> still w w' (d1 ++ d2).
  Proof.
    intros (H1&H2&H3&?&?) (H4&H5&H6&?&?). unfold still. split_and!; try congruence; [|lia].
    by rewrite H5, H2, app_assoc.
  Qed.
  Lemma keeps_gone v w v' w1 w' d1 d2 :
    keeps v w v' w1 d1 -> gone v' w1 w' d2 -> gone v w w' (d1 ++ d2).
  Proof.
    intros (H1&H2&H3&?) (H4&H5&H6&?&?). unfold gone. split_and!; try congruence; [|lia].
    by rewrite H5, H2, app_assoc.
  Qed.
  Lemma still_drop w w' ds x : still w w' ds -> still w (add_drop x w') (ds ++ [x]).
  Proof.
    intros (?&Hd&?&?&Hw). unfold still. split_and!; try done. simpl. by rewrite Hd, <-app_assoc.
  Qed.
  Lemma still_drops w w' d1 d2 : still w w' d1 -> still w (add_drops d2 w') (d1 ++ d2).
  Proof.
    revert w' d1. induction d2 as [|x d2 IH]; intros w' d1 H; simpl; [by rewrite app_nil_r|].
    rewrite (cons_middle x d1), app_assoc. apply IH. by apply still_drop.
  Qed.

  Lemma new_born w : wok w ->
    exists v w', vec_new w = (Ret v, w') /\ rep w' v [] /\ born w v w' [] /\
      vdata v = Dangling /\ vcap v = 0.
  Proof.
    intros Hw. destruct (new_ok Hz w Hw) as (v&w'&Hm&Hr&(Hh&Hd&?&Hn&?)&Hdang&?&_&?).
    exists v, w'. split_and!; try done. unfold born, vrest. rewrite Hdang, app_nil_r.
    split_and!; try done. lia.
  Qed.

  (** Dropping a vector whose elements' destructors do not panic. *)
  Lemma vec_drop_quiet w v xs :
    rep w v xs -> culprits drop_panics xs = [] ->
    exists w', vec_drop (v, w) = (Ret tt, (v, w')) /\ gone v w w' xs.
  Proof.
    intros Hr Hq. pose proof (drops_until_up_to xs) as Hu. rewrite Hq, up_to_1_all in Hu by done.
    destruct (vec_drop_ok Hz w v xs Hr) as (w'&Hm&Hh&Hd&Hc&Hn&_&Hw).
    { by rewrite Hu. }
    exists w'. split; [done|]. rewrite Hu in Hd. unfold gone. split_and!; try done. lia.
  Qed.
  Lemma vec_drop_val_quiet w v xs :
    rep w v xs -> culprits drop_panics xs = [] ->
    exists w', vec_drop_val v w = (Ret tt, w') /\ gone v w w' xs.
  Proof.
    intros Hr Hq. destruct (vec_drop_quiet w v xs Hr Hq) as (w'&Hm&?).
    exists w'. split; [|done]. unfold vec_drop_val. by rewrite Hm.
  Qed.
  Lemma vec_drop_gone w v xs :
    rep w v xs -> no_drop_panic ->
    exists w', vec_drop (v, w) = (Ret tt, (v, w')) /\ gone v w w' xs.
  Proof. intros Hr Hnp. apply vec_drop_quiet; [done|by apply culprits_quiet]. Qed.
  (** Dropping a vector, whatever the destructors do. *)
  Lemma drop_exact w v xs :
    rep w v xs ->
    exists w', vec_drop_val v w = (match culprits drop_panics xs with [] => Ret tt | _ => Panic PDrop end, w') /\
      drops w' = drops w ++ up_to drop_panics 1 xs /\
      heap w' = match culprits drop_panics xs with [] => delete_ptr (vdata v) (heap w) | _ => heap w end.
  Proof.
    intros Hr. pose proof Hr as [Hl _]. pose proof (drops_until_up_to xs) as E. unfold vec_drop_val.
    destruct (culprits drop_panics xs) eqn:Hc.
    - destruct (vec_drop_ok Hz w v xs Hr) as (w'&He&Hh&Hd&_); [by rewrite E|]. rewrite He. exists w'. rewrite E in Hd. done.
    - unfold vec_drop. rewrite bind_get_fst. destruct (N.ltb_spec 0 (vcap v)) as [Hv|Hv].
      + rewrite Hl. erewrite bind_Panic; [|apply on_snd_Ret; rewrite (drop_loop_rep Hz w v xs Hr), E; reflexivity].
        eexists. split; [done|]. split; [apply drops_add_drops|apply heap_add_drops].
      + destruct (rep_cap Hz _ _ _ Hr) as [Hle _]. destruct xs; [done|]. simpl in Hle. lia.
  Qed.
  Lemma vec_drop_val_gone w v xs :
    rep w v xs -> no_drop_panic ->
    exists w', vec_drop_val v w = (Ret tt, w') /\ gone v w w' xs.
  Proof.
    intros Hr Hnp. destruct (vec_drop_gone w v xs Hr Hnp) as (w'&Hm&?).
    exists w'. split; [|done]. unfold vec_drop_val. by rewrite Hm.
  Qed.

  Lemma with_local_Ret {A} v (m : MV A) c w a v' w' :
    m (v, w) = (Ret a, (v', w')) -> with_local v m c w = (Ret (a, v'), w').
  Proof. intros Hm. unfold with_local, on_unwind. by rewrite Hm. Qed.
  Lemma with_local_Panic {A} v (m : MV A) c w p v' w' v'' w'' :
    m (v, w) = (Panic p, (v', w')) -> c (v', w') = (Ret tt, (v'', w'')) ->
    with_local v m c w = (Panic p, w'').
  Proof. intros Hm Hc. unfold with_local, on_unwind. by rewrite Hm, Hc. Qed.

  (** ** Conversions *)
  Lemma from_array_gen w l :
    wok w -> fits (llen l) ->
    exists r w', vec_from_array l w = (r, w') /\
      ((exists v, r = Ret v /\ rep w' v l /\ born w v w' [] /\ vcap v = llen l)
       \/ (r = settle drop_panics (Panic PUnwrap) l /\ (r <> Abort -> still w w' l) /\ refuses)).
  Proof.
    intros Hw Hf. unfold vec_from_array.
    destruct (new_born w Hw) as (n&w1&Hn&Hr1&Hb1&Hd1&Hc1).
    erewrite bind_Ret by (apply on_unwind_Ret; exact Hn).
    destruct (reserve_exact_ok Hz w1 n [] (llen l) Hr1) as (r&v2&w2&Hm&Hk&Hr2&Hcase).
    { by rewrite N.add_0_l. }
    rewrite N.add_0_l in Hcase.
    pose proof (born_keeps _ _ _ _ _ _ _ Hb1 Hk (rep_wok _ _ _ Hr2)) as Hb2. simpl in Hb2.
    destruct Hcase as [(->&Hcap&_&Hsame&Heq)|(->&->&_&Ha)].
    - assert (exists w3,
        (if (t_size =? 0) || (llen l =? 0) then ret tt
         else copy_in (vdata v2) 0 (Some <$> l)) w2 = (Ret tt, w3) /\
        rep w3 (Vec (v_ptr v2) (llen l)) l /\ keeps v2 w2 (Vec (v_ptr v2) (llen l)) w3 [])
        as (w3&Hcp&Hr3&Hk3).
      { destruct (N.eqb_spec t_size 0); [lia|]. destruct (N.eqb_spec (llen l) 0) as [E|E]; simpl.
        - destruct l; [|done]. exists w2. split_and!; try done; [|apply keeps_len].
          destruct Hr2 as [? Hr2]. split; [done|]. exact Hr2.
        - destruct Hr2 as [_ [rest Ho]]. simpl in Ho.
          rewrite (owns_cap Hz _ _ _ Ho) in Hcap.
          assert (Hne : rest <> []) by (intros ->; simpl in *; lia).
          eexists. split.
          { apply copy_in_slots; [by apply owns_slots|]. rewrite fmap_length. lia. }
          rewrite fmap_length. change (N.to_nat 0) with 0%nat. simpl.
          apply (rep_update Hz w2 v2 rest _ l (drop (length l) rest) Ho Hne); [|done].
          rewrite app_length, fmap_length, drop_length. lia. }
      erewrite bind_Ret.
      2: { apply with_local_Ret with (a := tt).
           erewrite bind_Ret by (apply on_unwind_Ret; exact Hm).
           rewrite bind_get_fst.
           erewrite bind_on_snd_Ret by exact Hcp.
           destruct Hr3 as [_ [rest Ho]].
           apply (vec_set_len_eq Hz _ v2 ((Some <$> l) ++ rest)); [exact Ho|].
           rewrite app_length, fmap_length. lia. }
      eexists _, _. split; [reflexivity|]. left. eexists. split; [done|]. simpl.
      split_and!; [done|by apply (born_keeps _ _ _ _ _ [] [] Hb2 Hk3 (rep_wok _ _ _ Hr3))|].
      rewrite vcap_pos by done. simpl. rewrite <-vcap_pos by done.
      destruct (N.ltb_spec (vcap n) (llen l)) as [Hlt|Hge]; [by apply Heq|].
      destruct Hsame as [-> _]; lia.
    - destruct (vec_drop_quiet w2 n [] Hr2 eq_refl) as (w3&Hdr&Hg).
      pose proof (born_gone _ _ _ _ _ _ Hb2 Hg) as Hst. simpl in Hst.
      eexists _, (add_drops (fst (drops_glue false l)) w3). split.
      { apply (bind_settle_panic (A := unit * vec)) with (p := PUnwrap) (l := l).
        assert (Hi : on_unwind (vec_reserve_exact (llen l)) (vec_drop ;; on_snd (drop_vals l)) (n, w1)
          = (settle drop_panics (Panic PUnwrap) l, (n, add_drops (fst (drops_glue false l)) w3))).
        { eapply on_unwind_settle_glue; [exact Hm|]. erewrite bind_Ret by exact Hdr.
          rewrite <-settle_glue. apply on_snd_Ret. unfold drop_vals. apply drop_vals_eq. }
        unfold with_local, on_unwind at 1. erewrite bind_settle_panic by exact Hi.
        rewrite !settle_panic. destruct (culprits drop_panics l). reflexivity. reflexivity. }
      right. split_and!; [done| |by unfold refuses; eauto].
      intros Hna. rewrite glue_all; [by apply (still_drops _ _ [] l)|].
      rewrite settle_panic in Hna. rewrite settle_ret. by destruct (culprits drop_panics l) as [|? []].
  Qed.
  Lemma from_array_ok w l :
    wok w -> no_drop_panic -> fits (llen l) ->
    exists r w', vec_from_array l w = (r, w') /\
      ((exists v, r = Ret v /\ rep w' v l /\ born w v w' [] /\ vcap v = llen l)
       \/ (r = Panic PUnwrap /\ still w w' l /\ refuses)).
  Proof.
    intros Hw Hnp Hf. destruct (from_array_gen w l Hw Hf) as (r&w'&He&[H|(->&Hs&?)]); [by eauto 10|].
    rewrite settle_quiet in * by (by apply culprits_quiet). eauto 10.
  Qed.

  Lemma from_iter_ok w it hint :
    wok w -> no_drop_panic -> fits (N.max (llen it) hint) ->
    exists r w', vec_from_iter it hint w = (r, w') /\
      ((exists v ys, r = Ret v /\ it = Some <$> ys /\ rep w' v ys /\ born w v w' [])
       \/ (exists ys it', r = Panic PUser /\ it = (Some <$> ys) ++ None :: it' /\ still w w' ys)
       \/ (r = Panic PUnwrap /\ still w w' [] /\ refuses)
       \/ (exists ys y it', r = Panic PUnwrap /\ it = (Some <$> ys) ++ Some y :: it' /\
             still w w' (y :: ys) /\ refuses /\ hint < llen it)).
  Proof.
    intros Hw Hnp Hf. unfold vec_from_iter.
    destruct (with_capacity_ok Hz w hint Hw) as (r&w1&Hm&Hd&Hc&Hn&Hw1&Hcase).
    { eapply (fits_le Hz); [|exact Hf]. lia. }
    destruct Hcase as [(v1&->&Hr1&Hh&Hcap)|(->&Hh&Href)]; cycle 1.
    { erewrite bind_Panic by exact Hm. eexists _, _. split; [reflexivity|].
      right. right. left. split_and!; try done. unfold still. rewrite app_nil_r. done. }
    erewrite bind_Ret by exact Hm.
    assert (born w v1 w1 []) as Hb1 by (unfold born; rewrite app_nil_r; done).
    destruct (push_all_ok Hz it w1 v1 [] Hr1) as (r&v2&w2&ys&ds&Hm2&Hr2&Hk2&_&_&Hcase).
    { eapply (fits_le Hz); [|exact Hf]. simpl. lia. }
    simpl in Hr2. pose proof (born_keeps _ _ _ _ _ _ _ Hb1 Hk2 (rep_wok _ _ _ Hr2)) as Hb2.
    simpl in Hb2.
    destruct (vec_drop_gone w2 v2 ys Hr2 Hnp) as (w3&Hdr&Hg).
    pose proof (born_gone _ _ _ _ _ _ Hb2 Hg) as Hst.
    destruct Hcase as [(->&->&->)|[(->&[it' ->]&->)|(y&it'&Hrr&->&->&?&Hlt)]].
    - erewrite bind_Ret by (eapply with_local_Ret; exact Hm2).
      eexists _, _. split; [reflexivity|]. left. eauto 10.
    - erewrite bind_Panic by (eapply with_local_Panic; [exact Hm2|exact Hdr]).
      eexists _, _. split; [reflexivity|]. right. left. eauto.
    - assert (r = Panic PUnwrap) as ->.
      { subst r. unfold unwound. by rewrite Hnp, andb_false_r. }
      erewrite bind_Panic by (eapply with_local_Panic; [exact Hm2|exact Hdr]).
      eexists _, _. split; [reflexivity|]. right. right. right. exists ys, y, it'.
      split_and!; try done. rewrite Hcap in Hlt. simpl in Hlt. lia.
  Qed.

  Lemma clone_ok w v xs :
    rep w v xs -> no_drop_panic ->
    exists r w', vec_clone v w = (r, w') /\
      ((exists v' ys, r = Ret v' /\ mapM t_clone xs = Some ys /\ rep w' v' ys /\ born w v' w' [])
       \/ (exists l1 x l2 ys, r = Panic PUser /\ xs = l1 ++ x :: l2 /\ t_clone x = None /\
             mapM t_clone l1 = Some ys /\ still w w' ys)
       \/ (r = Panic PUnwrap /\ still w w' [] /\ refuses)).
  Proof.
    intros Hr Hnp. unfold vec_clone. erewrite bind_Ret by (by apply as_slice_ok).
    destruct (new_born w (rep_wok _ _ _ Hr)) as (n&w1&Hn&Hr1&Hb1&_).
    erewrite bind_Ret by exact Hn.
    destruct (extend_from_slice_ok Hz xs w1 n [] Hr1) as (r&v2&w2&ys&Hm2&Hr2&Hk2&_&_&Hcase).
    { rewrite N.add_0_l. destruct (rep_cap Hz _ _ _ Hr) as [? Hfc].
      by eapply (fits_le Hz); [|exact Hfc]. }
    simpl in Hr2. pose proof (born_keeps _ _ _ _ _ _ _ Hb1 Hk2 (rep_wok _ _ _ Hr2)) as Hb2.
    simpl in Hb2.
    destruct (vec_drop_gone w2 v2 ys Hr2 Hnp) as (w3&Hdr&Hg).
    pose proof (born_gone _ _ _ _ _ _ Hb2 Hg) as Hst. simpl in Hst.
    destruct Hcase as [(->&?)|[(->&l1&x&l2&->&?&?)|(->&->&->&?)]].
    - erewrite bind_Ret by (eapply with_local_Ret; exact Hm2).
      eexists _, _. split; [reflexivity|]. left. eauto 10.
    - erewrite bind_Panic by (eapply with_local_Panic; [exact Hm2|exact Hdr]).
      eexists _, _. split; [reflexivity|]. right. left. exists l1, x, l2, ys. done.
    - erewrite bind_Panic by (eapply with_local_Panic; [exact Hm2|exact Hdr]).
      eexists _, _. split; [reflexivity|]. right. right. done.
  Qed.

  (** [From<&[T]>]: only the empty slice works. *)
  Lemma from_slice_ok w l :
    wok w ->
    exists r w', vec_from_slice l w = (r, w') /\ still w w' [] /\
      match l with
      | [] => exists v, r = Ret v /\ rep w' v [] /\ born w v w' []
      | _ :: _ => r = Panic PLen
      end.
  Proof.
    intros Hw. unfold vec_from_slice.
    destruct (new_born w Hw) as (n&w1&Hn&Hr1&Hb1&Hd1&Hc1). erewrite bind_Ret by exact Hn.
    assert (still w w1 []) as Hst.
    { destruct Hb1 as (Hh&?&?&?&?). unfold vrest in Hh. rewrite Hd1 in Hh. done. }
    destruct l as [|x l]; simpl length.
    - erewrite bind_Ret by (eapply with_local_Ret; reflexivity).
      eexists _, _. split; [reflexivity|]. split; [done|]. eauto.
    - erewrite bind_Panic.
      2: { eapply with_local_Panic; [reflexivity|]. unfold vec_drop. rewrite bind_get_fst, Hc1.
           reflexivity. }
      eexists _, _. split; [reflexivity|]. done.
  Qed.

  (** ** Boxed slices *)
  (** A boxed slice owning exactly [xs]. *)
  Definition box_rep (w : W) (b : sptr) (xs : list T) : Prop :=
    sp_len b = llen xs /\ xs <> [] /\ rep w (Vec b (llen xs)) xs.

  Lemma into_boxed_slice_ok w v xs :
    rep w v xs -> xs <> [] -> no_drop_panic ->
    exists r w', vec_into_boxed_slice v w = (r, w') /\
      ((exists b, r = Ret b /\ box_rep w' b xs /\ keeps v w (Vec b (llen xs)) w' [])
       \/ (r = Panic PUnwrap /\ gone v w w' xs /\ refuses)).
  Proof.
    intros Hr Hne Hnp. unfold vec_into_boxed_slice.
    destruct (shrink_to_ok Hz w v xs 0 Hr) as (r&v'&w'&Hm&Hr'&Hk&Hcase).
    { left. destruct xs; [done|]. simpl. lia. }
    rewrite <-(shrink_to_fit_eq w v xs Hr) in Hm. rewrite N.max_0_r in Hcase.
    destruct (rep_cap Hz _ _ _ Hr) as [Hlc _].
    destruct Hcase as [(->&Hcap)|(->&->&Href)].
    - erewrite bind_Ret by (eapply with_local_Ret; exact Hm).
      eexists _, _. split; [reflexivity|]. left. eexists. split; [done|]. simpl.
      assert (v' = Vec (v_ptr v') (llen xs)) as Hv'.
      { destruct v'. f_equal. apply Hr'. }
      rewrite <-Hv'. split; [|done]. split_and!; try done; [|by rewrite <-Hv'].
      rewrite vcap_pos in Hcap by done. lia.
    - destruct (vec_drop_gone w' v xs Hr' Hnp) as (w3&Hdr&Hg).
      erewrite bind_Panic by (eapply with_local_Panic; [exact Hm|exact Hdr]).
      eexists _, _. split; [reflexivity|]. right. split_and!; try done.
      by eapply (keeps_gone _ _ _ _ _ []).
  Qed.

  Lemma box_drop_slice_ok w b xs :
    box_rep w b xs -> snd (drops_glue false xs) = Ret tt ->
    exists w', box_drop b w = (Ret tt, w') /\ gone (Vec b (llen xs)) w w' (fst (drops_glue false xs)).
  Proof.
    intros (Hl&Hne&Hr) Hnp. unfold box_drop, sp_drop. rewrite Hl.
    replace (N.to_nat (llen xs)) with (length xs) by lia.
    destruct Hr as [Hl' [rest Ho]].
    destruct (drop_range_rep Hz w (Vec b (llen xs)) xs rest 0 xs Ho eq_refl Hne) as [Ht Hsa].
    unfold drop_slice. erewrite bind_Ret.
    2: { erewrite drop_slice_slots by done. by rewrite Hnp. }
    set (ds := fst (drops_glue false xs)).
    destruct (rep_dealloc Hz (add_drops ds w) (Vec b (llen xs)) xs) as (w'&Hw&Hh&Hd&?&Hn&_&?).
    { split; [done|]. exists rest. by apply owns_drops. }
    { rewrite vcap_pos by done. simpl. rewrite Hl. destruct xs; [done|]. simpl. lia. }
    exists w'. split; [exact Hw|]. unfold gone. rewrite Hd, drops_add_drops.
    unfold vrest in *. rewrite heap_add_drops in Hh.
    rewrite cur_add_drops, next_add_drops in *. split_and!; try done. lia.
  Qed.

  Lemma box_into_vec_ok w b xs : box_rep w b xs -> rep w (vec_from_box b) xs.
  Proof. intros (Hl&_&Hr). unfold vec_from_box. by rewrite Hl. Qed.

  (** The boxed slice made from an empty vector: dropping it releases a pointer that owns nothing. *)
  Lemma box_empty_drop w v :
    rep w v [] -> vcap v = 0 ->
    exists b, vec_into_boxed_slice v w = (Ret b, w) /\ box_drop b w = (UB Dangling_access, w).
  Proof.
    intros [Hl [rest Ho]] Hc. rewrite (owns_cap Hz _ _ _ Ho) in Hc. simpl in *.
    exists (v_ptr v). split.
    - assert (vec_shrink_to_fit (v, w) = (Ret tt, (v, w))) as E.
      { unfold vec_shrink_to_fit. rewrite bind_get_fst, Hl, (owns_cap Hz _ _ _ Ho), Hc. done. }
      unfold vec_into_boxed_slice. erewrite bind_Ret by (eapply with_local_Ret; exact E). done.
    - destruct Ho as (?&Hlen&_&H). unfold box_drop, sp_drop, vdata in *. rewrite <-Hlen, Hc.
      simpl. unfold sp_dealloc, ga_dealloc. destruct (sp_ptr (v_ptr v)); [done|].
      destruct H as (?&_). lia.
  Qed.

  (** ** Giving the storage away *)
  Lemma leak_ok w v xs :
    rep w v xs -> no_drop_panic ->
    exists w', vec_leak v w = (Ret (vdata v, llen xs), w') /\ gone v w w' xs.
  Proof.
    intros Hr Hnp. destruct (vec_drop_val_gone w v xs Hr Hnp) as (w'&Hm&Hg).
    exists w'. split; [|done]. unfold vec_leak. erewrite bind_Ret by exact Hm.
    by rewrite (proj1 Hr).
  Qed.

  Lemma split_off_ok w v xs at_ :
    rep w v xs ->
    exists r w', vec_split_off at_ (v, w) = (r, (v, w')) /\
      rep w' v xs /\
      ((exists o, r = Ret o /\ rep w' o [] /\ vrest o w' = heap w /\
          vcap o = llen xs - at_)
       \/ (r = Panic PUnwrap /\ still w w' [] /\ refuses)).
  Proof.
    intros Hr. pose proof (rep_wok _ _ _ Hr) as Hw. pose proof (rep_cap Hz _ _ _ Hr) as [? Hfc].
    unfold vec_split_off. rewrite bind_get_fst, (proj1 Hr).
    assert (forall o w', born w o w' [] -> rep w' v xs /\ (vdata o <> Dangling -> vdata o <> vdata v)) as Hfr.
    { intros o w' (Hh&_&Hc&Hn&Hw'). destruct Hr as [Hl [rest (_&Hs&Hb&Ho)]].
      destruct (vdata v) as [|b] eqn:Hv.
      - split; [|intros; congruence]. split; [done|]. exists rest. unfold owns.
        rewrite Hv. done.
      - destruct Ho as (?&?&Hbl). unfold vrest in Hh.
        assert (delete_ptr (vdata o) (heap w') !! b = heap w !! b) as Hlk by (by rewrite Hh).
        rewrite Hbl in Hlk.
        assert (heap w' !! b = heap w !! b /\ vdata o <> Blk b) as [Hlk' Hneq].
        { destruct (vdata o) as [|b']; simpl in Hlk; [by rewrite Hlk|].
          apply lookup_delete_Some in Hlk as [? Hlk]. rewrite Hlk. split; [done|].
          intros [= ->]. done. }
        split; [|done].
        split; [done|]. exists rest. unfold owns. rewrite Hv. split_and!; try done; [lia|].
        by rewrite Hlk'. }
    destruct (N.leb_spec (llen xs) at_) as [Hle|Hlt].
    - destruct (new_born w Hw) as (o&w'&Hn&Hro&Hb&Hd&Hc).
      eexists _, _. split; [by apply on_snd_Ret|]. destruct (Hfr _ _ Hb) as [? _].
      split; [done|]. left. exists o. split_and!; try done; [by destruct Hb|lia].
    - rewrite bind_usub by lia.
      destruct (with_capacity_ok Hz w (llen xs - at_) Hw) as (r&w1&Hm&Hd&Hc&Hn&Hw1&Hcase).
      { eapply (fits_le Hz); [|exact Hfc]. lia. }
      destruct Hcase as [(o&->&Hro&Hh&Hcap)|(->&Hh&Href)]; cycle 1.
      { erewrite bind_Panic by (by apply on_snd_Ret). eexists _, _. split; [reflexivity|].
        assert (still w w1 []) as Hst by (unfold still; rewrite app_nil_r; done).
        split; [|by right].
        destruct Hr as [Hl [rest Ho]]. split; [done|]. exists rest.
        destruct Ho as (?&?&?&Ho). unfold owns. split_and!; try done.
        destruct (vdata v); [done|]. destruct Ho as (?&?&Hb). split_and!; try done; [lia|].
        by rewrite Hh. }
      erewrite bind_on_snd_Ret by exact Hm.
      assert (born w o w1 []) as Hb1 by (unfold born; rewrite app_nil_r; done).
      destruct (Hfr _ _ Hb1) as [Hr1 Hap].
      destruct Hr1 as [Hl1 [rest1 Ho1]]. pose proof Hro as [_ [resto Hoo]]. simpl in Hoo.
      rewrite (owns_cap Hz _ _ _ Hoo) in Hcap.
      assert (Hne : (Some <$> xs) ++ rest1 <> []) by (destruct xs; [simpl in *; lia|done]).
      assert (Hneo : resto <> []) by (intros ->; simpl in *; lia).
      pose proof (owns_slots _ _ _ Hoo Hneo) as Hso.
      pose proof (owns_slots _ _ _ Ho1 Hne) as Hsv.
      assert (vdata o <> vdata v) as Hneq by (apply Hap; by destruct (vdata o)).
      erewrite bind_on_snd_Ret.
      2: { eapply (copy_no_slots _ _ _ _ _ _ _ _ Hz Hsv Hso); [rewrite app_length, fmap_length; lia|lia|].
           left. by apply not_eq_sym. }
      set (s' := copied _ _ _ _ _).
      assert (length s' = length resto) as Hl'.
      { unfold s', copied. rewrite !app_length, !take_length, !drop_length, app_length, fmap_length.
        lia. }
      destruct (owns_set_slots Hz _ _ _ _ Hoo Hl' Hneo) as (Ho2&Hvr&Hd2&Hc2&Hn2).
      eexists _, _. split; [reflexivity|].
      assert (born w o (set_slots (vdata o) s' w1) []) as Hb2.
      { unfold born. rewrite Hvr, Hd2, Hc2, Hn2, app_nil_r. split_and!; try done. apply Ho2. }
      destruct (Hfr _ _ Hb2) as [? _]. split; [done|]. left. exists o.
      split_and!; try done; [|by destruct Hb2|by rewrite (owns_cap Hz _ _ _ Hoo)].
      split; [by destruct Hro|]. exists s'. done.
  Qed.

  (** ** By-value iteration *)
  (** The iterator has yielded [ys] (whose bits are still in memory) and still holds [xs]. *)
  Definition it_rep (w : W) (i : into_iter) (ys xs : list T) : Prop :=
    it_index i = llen ys /\ rep w (it_vec i) (ys ++ xs).

  Lemma it_next_ok w i ys xs :
    it_rep w i ys xs ->
    exists i', it_next (i, w) = (Ret (head xs), (i', w)) /\ it_vec i' = it_vec i /\
      match xs with
      | [] => i' = i
      | x :: xs' => it_rep w i' (ys ++ [x]) xs'
      end.
  Proof.
    intros [Hi Hr]. unfold it_next. rewrite bind_get_fst, Hi, (proj1 Hr).
    destruct xs as [|x xs].
    - rewrite app_nil_r. rewrite N.ltb_irrefl. by exists i.
    - destruct (N.ltb_spec (llen ys) (llen (ys ++ x :: xs))) as [_|H];
        [|rewrite app_length in H; simpl in H; lia].
      pose proof (rep_cap Hz _ _ _ Hr) as [Hc Hf]. pose proof (fits_bound Hz _ Hf).
      rewrite app_length in Hc. simpl in Hc.
      rewrite bind_uadd by (unfold isize_max, usize_max in *; lia). rewrite bind_put_fst.
      erewrite bind_on_snd_Ret.
      2: { apply (read_rep Hz _ _ (ys ++ x :: xs)); [done|].
           rewrite Nat2N.id. apply list_lookup_middle. done. }
      eexists. split; [reflexivity|]. split; [done|]. split; simpl.
      + rewrite app_length. simpl. lia.
      + by rewrite <-app_assoc.
  Qed.

  Lemma it_as_slice_ok w i ys xs : it_rep w i ys xs -> it_as_slice i w = (Ret xs, w).
  Proof.
    intros [Hi Hr]. unfold it_as_slice, it_size_hint. rewrite Hi, (proj1 Hr).
    rewrite app_length. rewrite bind_usub by lia.
    replace (N.to_nat (N.of_nat (length ys + length xs) - llen ys)) with (length xs) by lia.
    destruct (decide (xs = [])) as [->|Hne]; [done|].
    destruct Hr as [_ [rest Ho]].
    destruct (drop_range_rep Hz w (it_vec i) (ys ++ xs) rest (llen ys) xs Ho) as [Ht Hsa]; [|done|].
    { rewrite Nat2N.id. apply drop_app. }
    by eapply (read_list_slots Hz).
  Qed.

  Lemma it_drop_ok w i ys xs :
    it_rep w i ys xs -> no_drop_panic ->
    exists i' w', it_drop (i, w) = (Ret tt, (i', w')) /\ gone (it_vec i) w w' xs.
  Proof.
    intros [Hi Hr] Hnp. unfold it_drop.
    pose proof (rep_cap Hz _ _ _ Hr) as [Hc Hf]. pose proof (fits_bound Hz _ Hf).
    pose proof Hr as [Hl [rest Ho]].
    assert (it_drop_body (i, w) =
            (Ret tt, (IntoIter (Vec (v_ptr (it_vec i)) 0) (it_index i), add_drops xs w))) as Hbody.
    { unfold it_drop_body. rewrite bind_get_fst.
      erewrite bind_Ret.
      2: { unfold on_it_vec. simpl. erewrite (vec_set_len_eq Hz _ _ _ 0 Ho) by lia. reflexivity. }
      rewrite Hl, Hi, app_length. rewrite bind_usub by lia.
      replace (N.of_nat (length ys + length xs) - llen ys) with (llen xs) by lia.
      destruct (N.ltb_spec isize_max (llen xs * t_size)) as [Hbig|_].
      { rewrite app_length in Hc. unfold fits, limit in Hf. pose proof t_align_pos.
        exfalso. assert (llen xs * t_size <= vcap (it_vec i) * t_size) by nia.
        unfold isize_max in *. lia. }
      rewrite Nat2N.id. apply on_snd_Ret.
      destruct (decide (xs = [])) as [->|Hne]; [done|].
      destruct (drop_range_rep Hz w (it_vec i) (ys ++ xs) rest (llen ys) xs Ho) as [Ht Hsa]; [|done|].
      { rewrite Nat2N.id. apply drop_app. }
      erewrite drop_loop_slots by done. by rewrite drops_until_ok. }
    assert (rep (add_drops xs w) (Vec (v_ptr (it_vec i)) 0) []) as Hr0.
    { split; [done|]. eexists. simpl. apply (owns_drops w (it_vec i) _ xs). exact Ho. }
    destruct (vec_drop_gone _ _ _ Hr0 Hnp) as (w'&Hdr&Hg).
    eexists _, _. split.
    - unfold finally. erewrite bind_Ret by (apply on_unwind_Ret; exact Hbody).
      erewrite bind_Ret; [reflexivity|]. unfold on_it_vec. simpl. rewrite Hdr. reflexivity.
    - eapply (keeps_gone _ _ _ _ _ xs []) in Hg; [|apply (keeps_drops (it_vec i))].
      by rewrite app_nil_r in Hg.
  Qed.

  (** [next_back] pops the inner vector, whatever the index is. *)
  Lemma it_back_ok w i all :
    rep w (it_vec i) all ->
    exists i', it_next_back (i, w) = (Ret (last all), (i', w)) /\ it_index i' = it_index i /\
      rep w (it_vec i') (take (length all - 1) all) /\ vdata (it_vec i') = vdata (it_vec i).
  Proof.
    intros Hr. unfold it_next_back.
    destruct (pop_ok Hz w (it_vec i) _ Hr) as (v'&w'&Hp&Hr'&Hk&Hptr).
    assert (w' = w) as ->.
    { unfold vec_pop in Hp. rewrite bind_get_fst, (proj1 Hr) in Hp.
      destruct (N.eqb_spec (llen all) 0); [by injection Hp|].
      rewrite bind_usub in Hp by lia.
      destruct (lookup_lt_is_Some_2 all (length all - 1)) as [x Hx]; [lia|].
      erewrite bind_on_snd_Ret in Hp.
      2: { apply (read_rep Hz _ _ all _ x); [done|].
           by replace (N.to_nat (llen all - 1)) with (length all - 1)%nat by lia. }
      destruct Hr as [_ [rest Ho]].
      erewrite (bind_Ret (vec_set_len _)) in Hp.
      2: { eapply (vec_set_len_eq Hz); [done|]. rewrite app_length, fmap_length. lia. }
      by injection Hp. }
    exists (IntoIter v' (it_index i)). unfold on_it_vec. simpl. rewrite Hp. simpl.
    split_and!; try done. unfold vdata. by rewrite Hptr.
  Qed.

  Lemma it_next_back_ok w i ys xs :
    it_rep w i ys xs -> xs <> [] ->
    exists i', it_next_back (i, w) = (Ret (last xs), (i', w)) /\
      it_rep w i' ys (take (length xs - 1) xs) /\ vdata (it_vec i') = vdata (it_vec i).
  Proof.
    intros [Hi Hr] Hne. destruct (it_back_ok w i _ Hr) as (i'&He&Hx&Hr'&Hd).
    assert (0 < length xs)%nat by (destruct xs; [done|simpl; lia]).
    exists i'. split_and!; [|split; [lia|]|done].
    - rewrite He, last_app. destruct (last xs) eqn:E; [done|]. by apply last_None in E.
    - rewrite app_length in Hr'. rewrite take_app_ge in Hr' by lia.
      by replace (length ys + length xs - 1 - length ys)%nat with (length xs - 1)%nat in Hr' by lia.
  Qed.
End vec4.
