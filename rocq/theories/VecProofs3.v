(** Proofs about [Vec], continued: construction, two vectors at once, bulk operations. *)
From Verif Require Export VecProofs2.
From Coq Require Import ZifyBool ZifyNat ZifyN.

Section vec3.
  Context {EN : Env} {T : Type} {EL : Elem T} (Hz : 0 < t_size).
  Notation W := (world T).
  Notation MV := (M (vec * W)).
  Implicit Types (w : W) (v : vec) (s : list (option T)) (xs : list T).

  (** ** Construction *)
  (** [w'] extends [w] by nothing but bookkeeping (no heap change). *)
  Definition quiet (w w' : W) : Prop :=
    heap w' = heap w /\ drops w' = drops w /\ cur_scope w' = cur_scope w /\
    next_id w' = next_id w /\ ncalls w' = ncalls w.

  Lemma rep_wok w v xs : rep w v xs -> wok w.
  Proof. by intros [_ [? [? _]]]. Qed.

  Lemma alloc_for_ok w sel : wok w ->
    exists sc, cur_scope w = Some sc /\
      alloc_for sel w = (Ret (e_alloc_for sc sel), add_event (EvSelect sc sel) w).
  Proof. intros [[sc Hc] _]. exists sc. unfold alloc_for. by rewrite Hc. Qed.

  Lemma with_marker_ok w m :
    wok w ->
    exists v w', vec_with_marker m w = (Ret v, w') /\ rep w' v [] /\ quiet w w' /\
      vdata v = Dangling /\ vcap v = 0 /\ vmarker v = MNone /\ wok w'.
  Proof.
    intros Hw. unfold vec_with_marker.
    destruct (alloc_for_ok w (Selector m t_name) Hw) as (sc&Hc&Ha).
    erewrite bind_Ret by exact Ha. eexists _, _. split; [done|].
    assert (wok (add_event (EvSelect sc (Selector m t_name)) w)) as Hw' by done.
    split_and!; try done.
    - split; [done|]. exists []. split; [done|]. simpl. unfold limit. split; [done|].
      split; [lia|done].
    - rewrite vcap_pos by done. done.
  Qed.

  Lemma new_ok w :
    wok w ->
    exists v w', vec_new w = (Ret v, w') /\ rep w' v [] /\ quiet w w' /\
      vdata v = Dangling /\ vcap v = 0 /\ vmarker v = MNone /\ wok w'.
  Proof. apply with_marker_ok. Qed.

  (** A fresh vector: the rest of the heap is the heap before. *)
  Lemma try_with_capacity_ok w c m :
    wok w -> fits c ->
    exists r w', vec_try_with_capacity_and_marker c m w = (Ret r, w') /\
      drops w' = drops w /\ cur_scope w' = cur_scope w /\ next_id w <= next_id w' /\ wok w' /\
      ((exists v, r = Ok v /\ rep w' v [] /\ vrest v w' = heap w /\ vcap v = c)
       \/ (r = Err AllocErr /\ heap w' = heap w /\ e_aok (ncalls w) (c * t_size) = false)).
  Proof.
    intros Hw Hf. unfold vec_try_with_capacity_and_marker.
    destruct (N.eqb_spec c 0) as [->|Hc]; simpl.
    - destruct (with_marker_ok w m Hw) as (v&w'&Hm&Hr&(Hh&?&?&?&?)&Hd&Hcap&_&Hw').
      erewrite bind_Ret by exact Hm. eexists _, _. split; [done|].
      split_and!; try done; [lia|]. left. exists v. split_and!; try done.
      unfold vrest. by rewrite Hd.
    - destruct (N.eqb_spec t_size 0); [lia|].
      destruct (alloc_array_ok Hz w c m Hw) as (a&r&w'&Hr&Hcase&Hd&Hcur&Hnc); [lia|done|].
      erewrite bind_Ret by exact Hr.
      destruct Hcase as [(b&->&Hok&->&Hnx&Hh)|(->&Hok&Hh&Hnx)]; simpl.
      + assert (wok w') as Hw'.
        { destruct Hw as [? Hfr]. split; [by rewrite Hcur|]. intros b' Hb'. rewrite Hh.
          rewrite lookup_insert_ne by lia. apply Hfr. lia. }
        eexists _, _. split; [done|]. split_and!; try done; [lia|]. left.
        eexists. split; [done|]. split_and!.
        * split; [done|]. exists (replicate (N.to_nat c) None). simpl. split; [done|]. simpl.
          rewrite replicate_length. rewrite N2Nat.id. split_and!; try done; [lia|lia|].
          rewrite Hh, lookup_insert. done.
        * unfold vrest. simpl. rewrite Hh. apply delete_insert. apply Hw. lia.
        * by rewrite vcap_pos.
      + eexists _, _. split; [done|]. split_and!; try done; [lia|by eapply wok_step|].
        right. done.
  Qed.

  Lemma with_capacity_ok w c :
    wok w -> fits c ->
    exists r w', vec_with_capacity c w = (r, w') /\
      drops w' = drops w /\ cur_scope w' = cur_scope w /\ next_id w <= next_id w' /\ wok w' /\
      ((exists v, r = Ret v /\ rep w' v [] /\ vrest v w' = heap w /\ vcap v = c)
       \/ (r = Panic PUnwrap /\ heap w' = heap w /\ refuses)).
  Proof.
    intros Hw Hf. unfold vec_with_capacity, vec_try_with_capacity.
    destruct (try_with_capacity_ok w c MNone Hw Hf) as (r&w'&Hr&?&?&?&?&Hcase).
    erewrite bind_Ret by exact Hr.
    destruct Hcase as [(v&->&?&?&?)|(->&?&?)]; eexists _, _; (split; [reflexivity|]);
      split_and!; try done; [left; exists v|right]; fin.
  Qed.

  (** ** Two vectors *)
  Definition apart (v o : vec) : Prop :=
    match vdata v, vdata o with Blk a, Blk b => a <> b | _, _ => True end.

  Lemma apart_sym v o : apart v o -> apart o v.
  Proof. unfold apart. destruct (vdata v), (vdata o); auto. Qed.

  (** The world without both vectors' storage. *)
  Definition vrest2 (v o : vec) (w : W) : gmap N (block T) := delete_ptr (vdata o) (vrest v w).

  Lemma rep_frame w v w' v' o ys ds :
    rep w o ys -> apart v o -> keeps v w v' w' ds -> wok w' -> next_id w <= next_id w' ->
    rep w' o ys /\ apart v' o.
  Proof.
    intros [Hl [rest (Hw&Hs&Hb&Ho)]] Ha (Hh&_&_&_) Hw' Hn.
    destruct (vdata o) as [|b] eqn:Hvo.
    { split; [|unfold apart; rewrite Hvo; by destruct (vdata v')].
      split; [done|]. exists rest. unfold owns. rewrite Hvo. done. }
    destruct Ho as (?&?&Hlk). unfold vrest in Hh.
    assert (delete_ptr (vdata v') (heap w') !! b =
            Some (Block (sp_alloc (v_ptr o)) (layout_of (v_ptr o)) ((Some <$> ys) ++ rest))) as Hl'.
    { rewrite Hh. unfold apart in Ha. rewrite Hvo in Ha. destruct (vdata v); simpl; [done|].
      by rewrite lookup_delete_ne. }
    split.
    - split; [done|]. exists rest. unfold owns. rewrite Hvo. split_and!; try done; [lia|].
      destruct (vdata v'); simpl in Hl'; [done|]. by apply lookup_delete_Some in Hl' as [_ ?].
    - unfold apart. rewrite Hvo. destruct (vdata v'); [done|]. simpl in Hl'.
      by apply lookup_delete_Some in Hl' as [? _].
  Qed.

  Lemma append_ok w v xs o ys :
    rep w v xs -> rep w o ys -> apart v o -> fits (llen xs + llen ys) ->
    exists r v' w', vec_append o (v, w) = (r, (v', w')) /\ keeps v w v' w' [] /\ apart v' o /\
      vcap v <= vcap v' /\ vcap v' <= N.max (vcap v) (llen xs + llen ys) /\
      ((r = Ret (Vec (v_ptr o) 0) /\ rep w' v' (xs ++ ys) /\ rep w' o ys)
       \/ (r = Panic PUnwrap /\ v' = v /\ rep w' v' xs /\ rep w' o ys /\ refuses)).
  Proof.
    intros Hr Hro Hap Hf. pose proof (rep_cap Hz _ _ _ Hr) as [Hlc _]. unfold vec_append.
    rewrite (proj1 Hro).
    destruct (reserve_exact_ok Hz w v xs (llen ys) Hr Hf) as (r&v1&w1&Hm&Hk&Hr1&Hcase).
    destruct (rep_frame _ _ _ _ _ _ _ Hro Hap Hk (rep_wok _ _ _ Hr1)) as [Hro1 Hap1];
      [by destruct Hk as (_&_&_&?)|].
    destruct Hcase as [(->&Hc1&Hc2&Hc3&Hc4)|(->&->&?&?)]; cycle 1.
    { erewrite bind_Panic by exact Hm. eexists _, _, _. split; [reflexivity|].
      fin. right. fin. }
    erewrite bind_Ret by exact Hm. rewrite bind_get_fst, (proj1 Hr1).
    assert (Hcap : vcap v1 = N.max (vcap v) (llen xs + llen ys)).
    { destruct (N.ltb_spec (vcap v) (llen xs + llen ys)) as [Hlt|Hge].
      - rewrite Hc4 by done. lia.
      - destruct Hc3 as [-> _]; lia. }
    assert (forall n, vcap (Vec (v_ptr v1) n) = vcap v1) as Hvc by done.
    pose proof (fits_bound Hz _ Hf) as Hfb.
    destruct (decide (ys = [])) as [->|Hys].
    { erewrite bind_on_snd_Ret by apply copy_no_0. simpl length. rewrite bind_uadd.
      2: { simpl in *. unfold isize_max, usize_max in *. lia. }
      destruct Hr1 as [Hl1 [rest Ho1]].
      erewrite (bind_Ret (vec_set_len _)).
      2: { eapply (vec_set_len_eq Hz); [done|]. rewrite app_length, fmap_length. simpl. lia. }
      eexists _, _, _. split; [reflexivity|].
      split_and!; try done; [rewrite Hvc; simpl in *; lia..|].
      left. split_and!; try done. rewrite app_nil_r. split; [simpl; lia|]. eauto. }
    pose proof Hr1 as [Hl1 [rest Ho1]]. pose proof Hro1 as [Hlo [resto Hoo]].
    set (s := (Some <$> xs) ++ rest) in *.
    assert (llen s = vcap v1) as Hsl by (by rewrite (owns_cap Hz _ _ _ Ho1)).
    assert (length ys <> 0%nat) as Hys0 by (by destruct ys).
    assert (Hne : s <> []) by (intros E; rewrite E in Hsl; simpl in Hsl; lia).
    pose proof (owns_slots _ _ _ Ho1 Hne) as Hsa.
    pose proof (rep_slots _ _ _ _ Hoo Hys) as Hso.
    erewrite bind_on_snd_Ret.
    2: { eapply (copy_no_slots _ _ _ _ _ _ _ _ Hz Hso Hsa).
         - rewrite app_length, fmap_length. lia.
         - lia.
         - left. intros E. unfold apart in Hap1. rewrite E in Hap1.
           destruct (vdata v1); [done|]. done. }
    rewrite (copied_app [] (Some <$> ys) [] resto) by (rewrite ?fmap_length; done || lia).
    set (s' := take (N.to_nat (llen xs)) s ++ (Some <$> ys)
                 ++ drop (N.to_nat (llen xs) + N.to_nat (llen ys)) s).
    assert (Hs' : s' = (Some <$> xs ++ ys) ++ drop (N.to_nat (llen xs) + N.to_nat (llen ys)) s).
    { unfold s'. rewrite fmap_app, <-app_assoc. f_equal. unfold s.
      rewrite take_app_alt; [done|]. rewrite fmap_length. lia. }
    assert (Hl' : length s' = length s).
    { rewrite Hs', app_length, fmap_length, drop_length, app_length. lia. }
    destruct (rep_update Hz w1 v1 s s' _ _ Ho1 Hne Hl' Hs') as [Hr' Hk'].
    destruct (owns_set_slots Hz _ _ _ _ Ho1 Hl' Hne) as (Ho2&_).
    rewrite bind_uadd by (unfold isize_max, usize_max in *; lia).
    erewrite (bind_Ret (vec_set_len _)) by (eapply (vec_set_len_eq Hz); [exact Ho2|lia]).
    replace (llen (xs ++ ys)) with (llen xs + llen ys) in * by (rewrite app_length; lia).
    destruct (rep_frame _ _ _ _ _ _ _ Hro1 Hap1 Hk' (rep_wok _ _ _ Hr')) as [Hro2 Hap2];
      [by destruct Hk' as (_&_&_&?)|].
    eexists _, _, _. split; [reflexivity|].
    rewrite Hvc.
    split_and!; [by eapply (keeps_trans _ _ _ _ _ _ [] [])|done|lia|lia|]. left. done.
  Qed.

  (** ** Bulk pushes *)
  Lemma push_all_ok it : forall w v xs,
    rep w v xs -> fits (llen xs + llen it) ->
    exists r v' w' ys ds, vec_push_all it (v, w) = (r, (v', w')) /\
      rep w' v' (xs ++ ys) /\ keeps v w v' w' ds /\
      vcap v <= vcap v' /\ vcap v' <= N.max (vcap v) (llen xs + llen it) /\
      ((r = Ret tt /\ it = Some <$> ys /\ ds = [])
       \/ (r = Panic PUser /\ (exists it', it = (Some <$> ys) ++ None :: it') /\ ds = [])
       \/ (exists y it', r = unwound PUnwrap y /\ it = (Some <$> ys) ++ Some y :: it' /\
             ds = [y] /\ refuses /\ vcap v < llen xs + llen it)).
  Proof.
    induction it as [|[x|] it IH]; intros w v xs Hr Hf.
    - exists (Ret tt), v, w, [], []. rewrite app_nil_r. fin.
    - simpl in Hf. simpl vec_push_all.
      destruct (push_ok Hz w v xs x Hr) as (r&v1&w1&Hm&Hcase).
      { eapply (fits_le Hz); [|exact Hf]. lia. }
      destruct Hcase as [(->&Hr1&Hk1&Hc1)|(->&Hr1&Hk1&->&Hc1&Href)].
      + erewrite bind_Ret by exact Hm.
        assert (llen (xs ++ [x]) = llen xs + 1) as Hlx by (rewrite app_length; simpl; lia).
        destruct (IH w1 v1 (xs ++ [x]) Hr1) as (r&v'&w'&ys&ds&Hm'&Hr'&Hk'&Hc'&Hc''&Hcase).
        { rewrite Hlx. eapply (fits_le Hz); [|exact Hf]. lia. }
        exists r, v', w', (x :: ys), ds. rewrite Hlx in *. rewrite <-app_assoc in Hr'.
        split_and!; try done; simpl; try lia; [by eapply (keeps_trans _ _ _ _ _ _ [])|].
        destruct Hcase as [(->&->&->)|[(->&[it' ->]&->)|(y&it'&->&->&->&?&?)]].
        * by left.
        * right. left. split_and!; eauto.
        * right. right. exists y, it'. fin.
      + erewrite bind_unwound by exact Hm. exists (unwound PUnwrap x), v, w1, [], [x].
        rewrite app_nil_r. fin. right. right. exists x, it. fin. simpl. lia.
    - exists (Panic PUser), v, w, [], []. rewrite app_nil_r. fin. right. left. split_and!; eauto.
  Qed.

  Lemma extend_from_iter_ok it hint w v xs :
    rep w v xs -> fits (llen xs + N.max (llen it) hint) ->
    exists r v' w' ys ds, vec_extend_from_iter it hint (v, w) = (r, (v', w')) /\
      rep w' v' (xs ++ ys) /\ keeps v w v' w' ds /\
      vcap v <= vcap v' /\ vcap v' <= N.max (vcap v) (llen xs + N.max (llen it) hint) /\
      ((r = Ret tt /\ it = Some <$> ys /\ ds = [])
       \/ (r = Panic PUser /\ (exists it', it = (Some <$> ys) ++ None :: it') /\ ds = [])
       \/ (r = Panic PUnwrap /\ ys = [] /\ ds = [] /\ refuses)
       \/ (exists y it', r = unwound PUnwrap y /\ it = (Some <$> ys) ++ Some y :: it' /\
             ds = [y] /\ refuses /\ hint < llen it)).
  Proof.
    intros Hr Hf. unfold vec_extend_from_iter.
    destruct (reserve_exact_ok Hz w v xs hint Hr) as (r&v1&w1&Hm&Hk&Hr1&Hcase).
    { eapply (fits_le Hz); [|exact Hf]. lia. }
    destruct Hcase as [(->&Hc1&Hc2&Hc3&Hc4)|(->&->&?&?)]; cycle 1.
    { erewrite bind_Panic by exact Hm. exists (Panic PUnwrap), v, w1, [], []. rewrite app_nil_r.
      fin. right. right. left. fin. }
    erewrite bind_Ret by exact Hm.
    assert (Hcap : vcap v1 = N.max (vcap v) (llen xs + hint)).
    { destruct (N.ltb_spec (vcap v) (llen xs + hint)) as [Hlt|Hge].
      - rewrite Hc4 by done. lia.
      - destruct Hc3 as [-> _]; lia. }
    destruct (push_all_ok it w1 v1 xs Hr1) as (r&v'&w'&ys&ds&Hm'&Hr'&Hk'&Hc'&Hc''&Hcase).
    { eapply (fits_le Hz); [|exact Hf]. lia. }
    exists r, v', w', ys, ds. split_and!; try done; try lia;
      [by eapply (keeps_trans _ _ _ _ _ _ [])|].
    destruct Hcase as [(->&->&->)|[(->&[it' ->]&->)|(y&it'&->&->&->&?&?)]].
    - by left.
    - right. left. split_and!; eauto.
    - right. right. right. exists y, it'. fin.
  Qed.

  (** Cloning a slice into the vector. *)
  Lemma push_clones_ok l : forall w v xs,
    rep w v xs -> fits (llen xs + llen l) -> llen xs + llen l <= vcap v ->
    exists r v' w' ys, vec_push_clones l (v, w) = (r, (v', w')) /\
      rep w' v' (xs ++ ys) /\ keeps v w v' w' [] /\ vcap v' = vcap v /\
      ((r = Ret tt /\ mapM t_clone l = Some ys)
       \/ (r = Panic PUser /\ exists l1 x l2, l = l1 ++ x :: l2 /\ mapM t_clone l1 = Some ys /\
             t_clone x = None)).
  Proof.
    induction l as [|x l IH]; intros w v xs Hr Hf Hc.
    - exists (Ret tt), v, w, []. rewrite app_nil_r. fin.
    - simpl in Hf, Hc. simpl vec_push_clones. unfold clone_val.
      destruct (t_clone x) as [y|] eqn:Hx; cycle 1.
      { exists (Panic PUser), v, w, []. rewrite app_nil_r. fin. right. split; [done|].
        exists [], x, l. done. }
      erewrite bind_on_snd_Ret by reflexivity.
      destruct (push_within Hz w v xs y Hr) as (v1&w1&Hm&Hr1&Hk1&Hc1&_); [lia|].
      erewrite bind_Ret by exact Hm.
      assert (llen (xs ++ [y]) = llen xs + 1) as Hlx by (rewrite app_length; simpl; lia).
      destruct (IH w1 v1 (xs ++ [y]) Hr1) as (r&v'&w'&ys&Hm'&Hr'&Hk'&Hc'&Hcase).
      { rewrite Hlx. eapply (fits_le Hz); [|exact Hf]. lia. } { rewrite Hlx. lia. }
      exists r, v', w', (y :: ys). rewrite <-app_assoc in Hr'.
      split_and!; try done; [by eapply (keeps_trans _ _ _ _ _ _ [] [])|lia|].
      destruct Hcase as [(->&Hys)|(->&l1&z&l2&->&Hys&?)].
      + left. split; [done|]. simpl. by rewrite Hx, Hys.
      + right. split; [done|]. exists (x :: l1), z, l2. simpl. by rewrite Hx, Hys.
  Qed.

  Lemma extend_from_slice_ok l w v xs :
    rep w v xs -> fits (llen xs + llen l) ->
    exists r v' w' ys, vec_extend_from_slice l (v, w) = (r, (v', w')) /\
      rep w' v' (xs ++ ys) /\ keeps v w v' w' [] /\ vcap v <= vcap v' /\
      vcap v' <= N.max (vcap v) (llen xs + llen l) /\
      ((r = Ret tt /\ mapM t_clone l = Some ys)
       \/ (r = Panic PUser /\ exists l1 x l2, l = l1 ++ x :: l2 /\ mapM t_clone l1 = Some ys /\
             t_clone x = None)
       \/ (r = Panic PUnwrap /\ ys = [] /\ v' = v /\ refuses)).
  Proof.
    intros Hr Hf. unfold vec_extend_from_slice.
    destruct (reserve_exact_ok Hz w v xs _ Hr Hf) as (r&v1&w1&Hm&Hk&Hr1&Hcase).
    destruct Hcase as [(->&Hc1&Hc2&Hc3&Hc4)|(->&->&?&?)]; cycle 1.
    { erewrite bind_Panic by exact Hm. exists (Panic PUnwrap), v, w1, []. rewrite app_nil_r.
      fin. right. right. fin. }
    erewrite bind_Ret by exact Hm.
    assert (Hcap : vcap v1 = N.max (vcap v) (llen xs + llen l)).
    { destruct (N.ltb_spec (vcap v) (llen xs + llen l)) as [Hlt|Hge].
      - rewrite Hc4 by done. lia.
      - destruct Hc3 as [-> _]; lia. }
    destruct (push_clones_ok l w1 v1 xs Hr1 Hf Hc1) as (r&v'&w'&ys&Hm'&Hr'&Hk'&Hc'&Hcase).
    exists r, v', w', ys. split_and!; try done; try lia;
      [by eapply (keeps_trans _ _ _ _ _ _ [] [])|].
    destruct Hcase as [?|?]; [by left|right; by left].
  Qed.
End vec3.
