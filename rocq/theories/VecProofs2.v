(** Proofs about [Vec], continued: removal, destruction, bulk operations. *)
From Verif Require Export VecProofs.
From Coq Require Import ZifyBool ZifyNat ZifyN.

Ltac fin := split_and!;
  first [ done | lia | by apply rep_add_drop | by apply keeps_refl | by apply keeps_len
        | by apply (keeps_add_drop _ _ _ _ [])
        | by apply (keeps_add_drop _ _ _ _ []), keeps_refl
        | unfold refuses; by eauto | idtac ].

Section vec2.
  Context {EN : Env} {T : Type} {EL : Elem T} (Hz : 0 < t_size).
  Notation W := (world T).
  Notation MV := (M (vec * W)).
  Implicit Types (w : W) (v : vec) (s : list (option T)) (xs : list T).

  Lemma remove_ok w v xs i :
    rep w v xs ->
    (llen xs <= i /\ vec_remove i (v, w) = (Panic PAssert, (v, w))) \/
    (exists x v' w', i < llen xs /\ xs !! N.to_nat i = Some x /\
      vec_remove i (v, w) = (Ret x, (v', w')) /\ rep w' v' (delete (N.to_nat i) xs) /\
      keeps v w v' w' [] /\ v_ptr v' = v_ptr v).
  Proof.
    intros Hr. pose proof (proj1 Hr) as Hl. unfold vec_remove. rewrite bind_get_fst, Hl.
    destruct (N.ltb_spec i (llen xs)) as [Hi|Hi]; cycle 1.
    { left. split; [done|]. done. }
    right. destruct (lookup_lt_is_Some_2 xs (N.to_nat i)) as [x Hx]; [lia|].
    rewrite bind_assert by done.
    erewrite bind_on_snd_Ret by (by apply (read_rep Hz _ _ xs)).
    rewrite !bind_usub by lia.
    pose proof Hr as [_ [rest Ho]].
    set (A := Some <$> take (N.to_nat i) xs). set (B := Some <$> drop (S (N.to_nat i)) xs).
    assert (Hs : (Some <$> xs) ++ rest = A ++ [Some x] ++ B ++ rest).
    { unfold A, B. rewrite (take_drop_middle_N xs i x Hx) at 1.
      rewrite fmap_app, fmap_cons, <-!app_assoc. done. }
    rewrite Hs in Ho.
    assert (HA : length A = N.to_nat i) by (unfold A; rewrite fmap_length, take_length; lia).
    assert (HB : length B = (length xs - S (N.to_nat i))%nat)
      by (unfold B; rewrite fmap_length, drop_length; lia).
    set (s := A ++ [Some x] ++ B ++ rest) in *.
    assert (Hsl : length s = (length xs + length rest)%nat).
    { unfold s. rewrite !app_length. simpl. lia. }
    assert (Hne : s <> []) by (unfold s; by destruct A).
    pose proof (owns_slots _ _ _ Ho Hne) as Hsa.
    erewrite bind_on_snd_Ret.
    2: { eapply (copy_at_slots _ _ _ _ _ _ _ _ Hz Hsa Hsa); rewrite Hsl; lia. }
    rewrite (copied_app (A ++ [Some x]) B [] rest).
    2: { unfold s. by rewrite <-app_assoc. }
    2: { rewrite app_length. simpl. lia. }
    2: lia.
    set (s' := take (N.to_nat i) s ++ B ++ drop (N.to_nat i + N.to_nat (llen xs - i - 1)) s).
    assert (Hs' : s' = (Some <$> delete (N.to_nat i) xs) ++ drop (length A + length B) s).
    { unfold s'. rewrite delete_take_drop, fmap_app. fold A B. rewrite <-app_assoc. f_equal.
      - unfold s. rewrite take_app_alt by lia. done.
      - do 2 f_equal. lia. }
    assert (Hl' : length s' = length s).
    { rewrite Hs', app_length, fmap_length, drop_length, delete_take_drop, app_length.
      rewrite take_length, drop_length. lia. }
    destruct (rep_update Hz w v s s' _ _ Ho Hne Hl' Hs') as [Hr' Hk'].
    destruct (owns_set_slots Hz _ _ _ _ Ho Hl' Hne) as (Ho2&_).
    rewrite bind_usub by lia.
    erewrite (bind_Ret (vec_set_len _)) by (eapply (vec_set_len_eq Hz); [exact Ho2|lia]).
    replace (llen (delete (N.to_nat i) xs)) with (llen xs - 1) in *.
    2: { rewrite delete_take_drop, app_length, take_length, drop_length. lia. }
    eexists x, _, _. split_and!; done.
  Qed.

  Lemma swap_remove_ok w v xs i :
    rep w v xs ->
    (e_strict = false \/ i + 1 <> llen xs \/ llen xs = 1) ->
    (llen xs <= i /\ vec_swap_remove i (v, w) = (Panic PAssert, (v, w))) \/
    (exists x l v' w', i < llen xs /\ xs !! N.to_nat i = Some x /\ last xs = Some l /\
      vec_swap_remove i (v, w) = (Ret x, (v', w')) /\
      rep w' v' (take (length xs - 1) (<[N.to_nat i := l]> xs)) /\
      keeps v w v' w' [] /\ v_ptr v' = v_ptr v).
  Proof.
    intros Hr Hst. pose proof (proj1 Hr) as Hl. unfold vec_swap_remove. rewrite bind_get_fst, Hl.
    destruct (N.ltb_spec i (llen xs)) as [Hi|Hi]; cycle 1.
    { left. split; [done|]. done. }
    right. destruct (lookup_lt_is_Some_2 xs (N.to_nat i)) as [x Hx]; [lia|].
    destruct (lookup_lt_is_Some_2 xs (length xs - 1)) as [l Hlst]; [lia|].
    assert (last xs = Some l) as Hlast.
    { rewrite last_lookup, <-Hlst. f_equal. lia. }
    rewrite bind_assert by done.
    destruct (N.eqb_spec (llen xs) 1) as [H1|H1].
    - destruct (pop_ok Hz w v xs Hr) as (v'&w'&Hp&Hr'&Hk&Hptr).
      rewrite (bind_Ret _ _ _ _ _ Hp), Hlast.
      assert (N.to_nat i = 0%nat) as Hi0 by lia. rewrite Hi0 in *.
      destruct xs as [|y [|]]; [done| |simpl in *; lia].
      simpl in *. injection Hx as ->. injection Hlast as ->.
      eexists _, _, _, _. split_and!; done.
    - rewrite bind_usub by lia.
      erewrite bind_on_snd_Ret by (by apply (read_rep Hz _ _ xs)).
      pose proof Hr as [_ [rest Ho]].
      set (s := (Some <$> xs) ++ rest) in *.
      assert (Hsl : length s = (length xs + length rest)%nat).
      { unfold s. by rewrite app_length, fmap_length. }
      assert (Hne : s <> []) by (intros E; rewrite E in Hsl; simpl in Hsl; lia).
      pose proof (owns_slots _ _ _ Ho Hne) as Hsa.
      erewrite bind_on_snd_Ret.
      2: { eapply (copy_no_slots _ _ _ _ _ _ _ _ Hz Hsa Hsa); [rewrite Hsl; lia..|].
           destruct Hst as [?|[?|?]]; [by right; right; right| |lia].
           right. right. left. lia. }
      assert (copied s (llen xs - 1) s i 1 = <[N.to_nat i := Some l]> s) as ->.
      { unfold copied. rewrite insert_take_drop by lia. f_equal.
        replace (N.to_nat (llen xs - 1)) with (length xs - 1)%nat by lia.
        erewrite drop_S.
        2: { apply lookup_slots. exact Hlst. }
        simpl. by rewrite Nat.add_1_r. }
      set (xs' := take (length xs - 1) (<[N.to_nat i := l]> xs)).
      set (s' := <[N.to_nat i := Some l]> s).
      assert (exists rest', s' = (Some <$> xs') ++ rest') as [rest' Hs'].
      { unfold s', s, xs'. rewrite insert_app_l by (rewrite fmap_length; lia).
        rewrite <-list_fmap_insert.
        exists ((Some <$> drop (length xs - 1) (<[N.to_nat i := l]> xs)) ++ rest).
        by rewrite app_assoc, <-fmap_app, take_drop. }
      assert (Hl' : length s' = length s) by (unfold s'; by rewrite insert_length).
      destruct (rep_update Hz w v s s' _ _ Ho Hne Hl' Hs') as [Hr' Hk'].
      destruct (owns_set_slots Hz _ _ _ _ Ho Hl' Hne) as (Ho2&_).
      rewrite bind_usub by lia.
      erewrite (bind_Ret (vec_set_len _)) by (eapply (vec_set_len_eq Hz); [exact Ho2|lia]).
      replace (llen xs') with (llen xs - 1) in *.
      2: { unfold xs'. rewrite take_length, insert_length. lia. }
      eexists x, l, _, _. split_and!; done.
  Qed.

  Lemma drop_range_rep w v xs rest i ys :
    owns w v ((Some <$> xs) ++ rest) -> drop (N.to_nat i) xs = ys ->
    ys <> [] -> take (length ys) (drop (N.to_nat i) ((Some <$> xs) ++ rest)) = Some <$> ys
    /\ slots_at w (vdata v) ((Some <$> xs) ++ rest).
  Proof.
    intros Ho <- Hne. assert (N.to_nat i < length xs)%nat as Hi.
    { destruct (Nat.lt_ge_cases (N.to_nat i) (length xs)); [done|]. by rewrite drop_ge in Hne. }
    split.
    - rewrite drop_app_le by (rewrite fmap_length; lia). rewrite <-fmap_drop.
      rewrite take_app_alt; [done|]. by rewrite fmap_length.
    - apply owns_slots; [done|]. by destruct xs; simpl in *; [lia|].
  Qed.

  (** Length-changing on an owned vector whose contents are [xs], exposing the slots. *)
  Lemma truncate_ok w v xs n :
    rep w v xs ->
    exists v', vec_truncate n (v, w) =
        (snd (drops_glue false (drop (N.to_nat n) xs)),
         (v', add_drops (fst (drops_glue false (drop (N.to_nat n) xs))) w)) /\
      rep w v' (take (N.to_nat n) xs) /\ v_ptr v' = v_ptr v.
  Proof.
    intros Hr. pose proof (proj1 Hr) as Hl. unfold vec_truncate. rewrite bind_get_fst, Hl.
    destruct (N.ltb_spec (llen xs) n) as [Hn|Hn].
    - rewrite drop_ge, take_ge by lia. exists v. done.
    - rewrite bind_usub by done. pose proof Hr as [_ [rest Ho]].
      erewrite (bind_Ret (vec_set_len _)).
      2: { eapply (vec_set_len_eq Hz); [done|]. rewrite app_length, fmap_length. lia. }
      exists (Vec (v_ptr v) n). split_and!; [|by apply rep_take|done].
      destruct (decide (drop (N.to_nat n) xs = [])) as [Hd|Hd].
      + rewrite Hd. assert (length (drop (N.to_nat n) xs) = 0%nat) as E by (by rewrite Hd).
        rewrite drop_length in E. replace (N.to_nat (llen xs - n)) with 0%nat by lia. done.
      + destruct (drop_range_rep w v xs rest n _ Ho eq_refl Hd) as [Ht Hsa].
        replace (N.to_nat (llen xs - n)) with (length (drop (N.to_nat n) xs))
          by (rewrite drop_length; lia).
        apply on_snd_Ret. by eapply drop_slice_slots.
  Qed.

  Lemma clear_ok w v xs :
    rep w v xs ->
    vec_clear (v, w) =
      match drops_until xs with
      | (d, Ret _) => (Ret tt, (Vec (v_ptr v) 0, add_drops d w))
      | (d, r) => (r, (v, add_drops d w))
      end.
  Proof.
    intros Hr. pose proof (proj1 Hr) as Hl. unfold vec_clear. rewrite bind_get_fst, Hl.
    pose proof Hr as [_ [rest Ho]].
    assert (drop_loop (vdata v) 0 (N.to_nat (llen xs)) w =
              (snd (drops_until xs), add_drops (fst (drops_until xs)) w)) as Hd.
    { destruct xs as [|x0 xs0] eqn:Hxs; [done|]. rewrite <-Hxs in *.
      destruct (drop_range_rep w v xs rest 0 xs Ho) as [Ht Hsa]; [done|by subst|].
      replace (N.to_nat (llen xs)) with (length xs) by lia. by eapply drop_loop_slots. }
    unfold bind at 1. rewrite (on_snd_Ret _ _ _ _ _ Hd).
    destruct (drops_until xs) as [d r]. simpl. destruct r; try done.
    apply (vec_set_len_eq Hz _ _ ((Some <$> xs) ++ rest)); [|lia]. by apply owns_drops.
  Qed.

  Lemma rep_dealloc w v xs :
    rep w v xs -> 0 < vcap v ->
    exists w', sp_dealloc (v_ptr v) w = (Ret tt, w') /\ heap w' = vrest v w /\
      drops w' = drops w /\ cur_scope w' = cur_scope w /\ next_id w' = next_id w /\
      ncalls w' = ncalls w /\ wok w'.
  Proof.
    intros [_ [rest Ho]] Hc. rewrite (owns_cap Hz _ _ _ Ho) in Hc.
    destruct Ho as ([Hcu Hf]&Hl&Hb&H). unfold vdata in *.
    unfold sp_dealloc, ga_dealloc, vrest, vdata. destruct (sp_ptr (v_ptr v)) as [|b] eqn:Hp.
    - rewrite H in Hc. simpl in Hc. lia.
    - destruct H as (_&?&Hbl). rewrite Hbl. simpl. rewrite decide_True by done.
      eexists. split; [done|]. simpl. split_and!; try done.
      split; [done|]. intros b' Hb'. simpl in *. rewrite lookup_delete_ne by lia. by apply Hf.
  Qed.

  Lemma drop_loop_rep w v xs :
    rep w v xs ->
    drop_loop (vdata v) 0 (N.to_nat (llen xs)) w =
      (snd (drops_until xs), add_drops (fst (drops_until xs)) w).
  Proof.
    intros [_ [rest Ho]]. destruct xs as [|x0 xs0] eqn:Hxs; [done|]. rewrite <-Hxs in *.
    destruct (drop_range_rep w v xs rest 0 xs Ho) as [Ht Hsa]; [done|by subst|].
    replace (N.to_nat (llen xs)) with (length xs) by lia. by eapply drop_loop_slots.
  Qed.

  (** Dropping a vector (no destructor panics): everything destroyed once, memory returned. *)
  Lemma vec_drop_ok w v xs :
    rep w v xs ->
    snd (drops_until xs) = Ret tt ->
    exists w', vec_drop (v, w) = (Ret tt, (v, w')) /\ heap w' = vrest v w /\
      drops w' = drops w ++ fst (drops_until xs) /\ cur_scope w' = cur_scope w /\
      next_id w' = next_id w /\ ncalls w' = ncalls w /\ wok w'.
  Proof.
    intros Hr Hnp. pose proof (proj1 Hr) as Hl. unfold vec_drop. rewrite bind_get_fst, Hl.
    destruct (N.ltb_spec 0 (vcap v)) as [Hc|Hc].
    - erewrite bind_on_snd_Ret by (rewrite drop_loop_rep by done; rewrite Hnp; reflexivity).
      assert (rep (add_drops (fst (drops_until xs)) w) v xs) as Hr'.
      { destruct Hr as [? [rest Ho]]. split; [done|]. exists rest. by apply owns_drops. }
      destruct (rep_dealloc _ v xs Hr' Hc) as (w'&Hw&Hh&?&?&?&?&?).
      exists w'. rewrite (on_snd_Ret _ _ _ _ _ Hw).
      unfold vrest in *. rewrite heap_add_drops in Hh. rewrite drops_add_drops in *.
      rewrite cur_add_drops, next_add_drops, ncalls_add_drops in *. done.
    - exists w. destruct Hr as [_ [rest Ho]].
      assert (llen ((Some <$> xs) ++ rest) = 0) as H0 by (rewrite <-(owns_cap Hz _ _ _ Ho); lia).
      destruct xs; [|simpl in *; lia]. destruct rest; [|simpl in *; lia]. simpl.
      destruct Ho as (?&_&_&H). unfold vrest. destruct (vdata v); [|simpl in *; lia]. simpl.
      rewrite app_nil_r. done.
  Qed.

  (** ** Reading *)
  Lemma read_list_slots l : forall w p s i,
    slots_at w p s -> take (length l) (drop (N.to_nat i) s) = Some <$> l ->
    read_list p i (length l) w = (Ret l, w).
  Proof.
    induction l as [|x l IH]; intros w p s i Hs Hl; [done|]. simpl in Hl.
    destruct (drop (N.to_nat i) s) as [|y s'] eqn:Hd; [done|]. simpl in Hl.
    injection Hl as -> Hl.
    assert (s !! N.to_nat i = Some (Some x)) as Hi.
    { rewrite <-(Nat.add_0_r (N.to_nat i)), <-lookup_drop, Hd. done. }
    simpl. erewrite bind_Ret by (by eapply read_at_slots).
    erewrite bind_Ret; [reflexivity|]. eapply IH; [done|].
    replace (N.to_nat (i + 1)) with (S (N.to_nat i)) by lia.
    rewrite <-Nat.add_1_r, <-drop_drop, Hd. done.
  Qed.

  Lemma as_slice_ok w v xs : rep w v xs -> vec_as_slice v w = (Ret xs, w).
  Proof.
    intros [Hl [rest Ho]]. unfold vec_as_slice. rewrite Hl.
    destruct xs as [|x0 xs0] eqn:Hxs; [done|]. rewrite <-Hxs in *.
    destruct (drop_range_rep w v xs rest 0 xs Ho) as [Ht Hsa]; [done|by subst|].
    replace (N.to_nat (llen xs)) with (length xs) by lia. by eapply read_list_slots.
  Qed.

  Lemma index_ok w v xs i :
    rep w v xs ->
    vec_index i (v, w) =
      (match xs !! N.to_nat i with Some x => Ret x | None => Panic PIndex end, (v, w)).
  Proof.
    intros Hr. unfold vec_index. rewrite bind_get_fst, (proj1 Hr).
    destruct (N.ltb_spec i (llen xs)).
    - destruct (lookup_lt_is_Some_2 xs (N.to_nat i)) as [x Hx]; [lia|]. rewrite Hx.
      apply on_snd_Ret. by apply (read_rep Hz _ _ xs).
    - rewrite lookup_ge_None_2 by lia. done.
  Qed.

  Lemma get_ok w v xs i :
    rep w v xs -> vec_get i (v, w) = (Ret (xs !! N.to_nat i), (v, w)).
  Proof.
    intros Hr. unfold vec_get. rewrite bind_get_fst, (proj1 Hr).
    destruct (N.ltb_spec i (llen xs)).
    - destruct (lookup_lt_is_Some_2 xs (N.to_nat i)) as [x Hx]; [lia|]. rewrite Hx.
      erewrite bind_on_snd_Ret by (by apply (read_rep Hz _ _ xs)). done.
    - rewrite lookup_ge_None_2 by lia. done.
  Qed.

  Lemma rep_write w v xs i x y :
    rep w v xs -> xs !! N.to_nat i = Some y ->
    exists w', write_at (vdata v) i x w = (Ret tt, w') /\ rep w' v (<[N.to_nat i := x]> xs) /\
      keeps v w v w' [].
  Proof.
    intros [Hl [rest Ho]] Hi. pose proof (lookup_lt_Some _ _ _ Hi).
    assert (Hne : (Some <$> xs) ++ rest <> []) by (by destruct xs).
    eexists. split.
    { apply write_at_slots; [done|by apply owns_slots|]. rewrite app_length, fmap_length. lia. }
    rewrite insert_app_l by (rewrite fmap_length; lia).
    rewrite <-list_fmap_insert.
    destruct (rep_update Hz w v _ ((Some <$> <[N.to_nat i := x]> xs) ++ rest) (<[N.to_nat i := x]> xs)
                rest Ho Hne) as [Hr' Hk']; [|done|].
    { by rewrite !app_length, !fmap_length, insert_length. }
    rewrite insert_length, <-Hl in Hr', Hk'. destruct v. done.
  Qed.

  Lemma assign_ok w v xs i x :
    rep w v xs ->
    exists r w', vec_assign i x (v, w) = (r, (v, w')) /\
      ((exists y, xs !! N.to_nat i = Some y /\ r = drop_res y /\
          rep w' v (<[N.to_nat i := x]> xs) /\ keeps v w v w' [y])
       \/ (xs !! N.to_nat i = None /\ r = unwound PIndex x /\ rep w' v xs /\ keeps v w v w' [x])).
  Proof.
    intros Hr. unfold vec_assign. rewrite bind_get_fst, (proj1 Hr).
    destruct (N.ltb_spec i (llen xs)).
    - destruct (lookup_lt_is_Some_2 xs (N.to_nat i)) as [y Hy]; [lia|].
      erewrite bind_on_snd_Ret by (by apply (read_rep Hz _ _ xs)).
      destruct (rep_write w v xs i x y Hr Hy) as (w1&Hw&Hr1&Hk).
      erewrite bind_on_snd_Ret by exact Hw.
      eexists _, _. split; [by apply on_snd_Ret|]. left. exists y. fin.
    - eexists _, _. split; [by apply on_unwind_drop|]. right.
      rewrite lookup_ge_None_2 by lia. fin.
  Qed.

  (** ** Shrinking *)
  Lemma shrink_to_ok w v xs m :
    rep w v xs -> (0 < N.max (llen xs) m \/ vcap v = 0) ->
    exists r v' w', vec_shrink_to m (v, w) = (r, (v', w')) /\ rep w' v' xs /\
      keeps v w v' w' [] /\
      ((r = Ret tt /\ vcap v' = N.min (vcap v) (N.max (llen xs) m))
       \/ (r = Panic PUnwrap /\ v' = v /\ refuses)).
  Proof.
    intros Hr Hpos. unfold vec_shrink_to. rewrite bind_get_fst, (proj1 Hr).
    destruct (N.ltb_spec (N.max (llen xs) m) (vcap v)) as [Hlt|Hge]; cycle 1.
    { exists (Ret tt), v, w. split; [done|]. fin. left. fin. }
    destruct Hpos as [Hpos|Hc0]; [|lia].
    unfold vec_shrink. rewrite bind_assoc, bind_get_fst.
    rewrite bind_assoc, bind_debug_assert by lia.
    rewrite (proj1 Hr). rewrite bind_assoc, bind_debug_assert by lia.
    destruct (N.eqb_spec t_size 0); [lia|].
    pose proof Hr as [Hl [rest Ho]].
    pose proof (rep_cap Hz _ _ _ Hr) as [Hlc Hfc].
    rewrite (owns_cap Hz _ _ _ Ho) in Hlt. rewrite app_length, fmap_length in Hlt.
    set (c := N.max (llen xs) m) in *.
    destruct (realloc_ok Hz w v _ c Ho) as (r&v'&w'&Hm&Hk&_&Hcase).
    { intros E. apply (f_equal length) in E. rewrite app_length, fmap_length in E. simpl in E. lia. }
    { lia. }
    { rewrite (owns_cap Hz _ _ _ Ho) in Hfc. rewrite app_length, fmap_length in Hfc.
      eapply (fits_le Hz); [|exact Hfc]. lia. }
    rewrite (bind_Ret _ _ _ _ _ Hm).
    destruct Hcase as [(->&Ho'&Hl'&_&_)|(->&->&Ho'&?)]; eexists _, _, _; (split; [reflexivity|]).
    - assert (rep w' v' xs) as Hr'.
      { split; [congruence|].
        rewrite take_app_ge in Ho' by (rewrite fmap_length; lia).
        rewrite <-app_assoc in Ho'. eauto. }
      fin. left. fin. rewrite (owns_cap Hz _ _ _ Ho').
      rewrite app_length, take_length, replicate_length, app_length, fmap_length.
      rewrite (owns_cap Hz _ _ _ Ho), app_length, fmap_length. lia.
    - fin; [split; eauto|]. right. fin.
  Qed.

  Lemma shrink_to_fit_eq w v xs :
    rep w v xs -> vec_shrink_to_fit (v, w) = vec_shrink_to 0 (v, w).
  Proof.
    intros Hr. unfold vec_shrink_to_fit, vec_shrink_to. rewrite !bind_get_fst.
    rewrite N.max_0_r. done.
  Qed.
End vec2.
