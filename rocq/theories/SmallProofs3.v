(** [SmallVec]: several elements at once, building, splitting, dropping. *)
From Verif Require Export SmallProofs2.
From Coq Require Import ZifyBool ZifyNat ZifyN.

Section small3.
  Context {EN : Env} {T : Type} {EL : Elem T} (Hz : 0 < t_size) (Cap : N) (HCap : fits Cap).
  Notation W := (world T).
  Notation MS := (M (svec T * W)).
  Implicit Types (w : W) (s o : svec T) (xs : list T).

  (** The block of a [SmallVec] seen as that of a vector, to reuse its frame lemmas. *)
  Definition hull s : vec :=
    match sv_store s with Stack _ => Vec (SPtr Dangling 0 0 MNone) 0 | Heap v => v end.
  Lemma hull_data s : vdata (hull s) = sdata s.
  Proof. unfold hull, sdata. by destruct (sv_store s). Qed.
  Lemma hull_rest s w : vrest (hull s) w = srest s w.
  Proof. unfold vrest, srest. by rewrite hull_data. Qed.
  Lemma hull_keeps s w s' w' ds : skeeps s w s' w' ds <-> keeps (hull s) w (hull s') w' ds.
  Proof. unfold skeeps, keeps. by rewrite !hull_rest. Qed.

  Definition sborn w s w' (ds : list T) : Prop :=
    srest s w' = heap w /\ drops w' = drops w ++ ds /\ cur_scope w' = cur_scope w /\
    next_id w <= next_id w' /\ wok w'.
  Definition sgone s w w' (ds : list T) : Prop :=
    heap w' = srest s w /\ drops w' = drops w ++ ds /\ cur_scope w' = cur_scope w /\
    next_id w <= next_id w' /\ wok w'.
  Definition sapart (s o : svec T) : Prop :=
    match sdata s, sdata o with Blk a, Blk b => a <> b | _, _ => True end.

  Lemma sborn_keeps w s w1 s' w' d1 d2 :
    sborn w s w1 d1 -> skeeps s w1 s' w' d2 -> wok w' -> sborn w s' w' (d1 ++ d2).
  Proof.
    intros (H1&H2&H3&?&?) (H4&H5&H6&?) ?. unfold sborn. split_and!; try congruence; [|lia].
    by rewrite H5, H2, app_assoc.
  Qed.
  Lemma sborn_gone w s w1 w' d1 d2 : sborn w s w1 d1 -> sgone s w1 w' d2 -> still w w' (d1 ++ d2).
  Proof.
    intros (H1&H2&H3&?&?) (H4&H5&H6&?&?). unfold still. split_and!; try congruence; [|lia].
    by rewrite H5, H2, app_assoc.
  Qed.
  Lemma skeeps_gone s w s' w1 w' d1 d2 :
    skeeps s w s' w1 d1 -> sgone s' w1 w' d2 -> sgone s w w' (d1 ++ d2).
  Proof.
    intros (H1&H2&H3&?) (H4&H5&H6&?&?). unfold sgone. split_and!; try congruence; [|lia].
    by rewrite H5, H2, app_assoc.
  Qed.

  Lemma sframe C w s w' s' o ys ds :
    srep C w o ys -> sapart s o -> skeeps s w s' w' ds -> wok w' -> srep C w' o ys /\ sapart s' o.
  Proof.
    intros [Hw Ho] Ha Hk Hw'. pose proof Hk as (_&_&_&Hn). apply hull_keeps in Hk.
    unfold sapart in *. rewrite <-!hull_data in *. destruct o as [[k|v] m].
    - split; [by split|]. simpl. by destruct (vdata (hull s')).
    - simpl in *. destruct (rep_frame Hz w (hull s) w' (hull s') v ys ds) as [Hr Hap]; try done.
  Qed.
  Lemma sborn_other C w s xs o w1 ds ys :
    srep C w s xs -> sborn w o w1 ds -> srep Cap w1 o ys -> srep C w1 s xs /\ sapart s o.
  Proof.
    intros [Hw Hs] Hb [Hw1 Ho]. pose proof Hb as (_&_&Hcu&Hn&_).
    destruct s as [[k|v] m].
    { split; [by split|]. unfold sapart. simpl. done. }
    simpl in Hs. destruct Hb as (Hv&_). unfold srest in Hv. destruct Hs as [Hl [rest Hos]].
    destruct Hos as (_&Hsl&Hbd&Hd). unfold sapart. change (sdata (SVec (Heap v) m)) with (vdata v).
    destruct (vdata v) as [|b] eqn:Ev.
    - split; [|done]. split; [done|]. simpl. split; [done|]. exists rest. unfold owns. rewrite Ev. done.
    - destruct Hd as (H1&H2&H3).
      assert (heap w1 !! b = heap w !! b /\ match sdata o with Dangling => True | Blk c => b <> c end)
        as [Hb1 Hne].
      { destruct (sdata o) as [|c]; simpl in Hv; [by rewrite Hv|].
        assert (b <> c) as Hne.
        { intros ->. rewrite <-Hv, lookup_delete in H3. done. }
        split; [|done]. rewrite <-Hv. by rewrite lookup_delete_ne. }
      split; [|by destruct (sdata o)]. split; [done|]. simpl.
      split; [done|]. exists rest. unfold owns. rewrite Ev. split_and!; try done; [lia|congruence].
  Qed.
  Lemma sgone_other w s xs o w1 ds :
    srep Cap w s xs -> sapart s o -> sgone o w w1 ds -> srep Cap w1 s xs.
  Proof.
    intros [Hw Hs] Ha (Hv&_&Hc&Hn&Hw1). destruct s as [[k|v] m]; [by split|]. simpl in Hs.
    split; [done|]. simpl. destruct Hs as [Hl [rest (_&Hsl&Hb&Hd)]]. split; [done|]. exists rest.
    unfold owns. unfold sapart in Ha. change (sdata (SVec (Heap v) m)) with (vdata v) in Ha.
    destruct (vdata v) as [|b] eqn:Ev; [split_and!; done|].
    destruct Hd as (H1&H2&H3). split_and!; try done; [lia|].
    rewrite Hv. unfold srest. destruct (sdata o) as [|c]; simpl; [done|]. by rewrite lookup_delete_ne.
  Qed.

  Lemma with_local_Ret_s {A} s (m : MS A) c w a s' w' :
    m (s, w) = (Ret a, (s', w')) -> with_local s m c w = (Ret (a, s'), w').
  Proof. intros E. unfold with_local. by rewrite (on_unwind_Ret _ _ _ _ _ E). Qed.
  Lemma with_local_Panic_s {A} s (m : MS A) c w p s' w' s'' w'' :
    m (s, w) = (Panic p, (s', w')) -> c (s', w') = (Ret tt, (s'', w'')) ->
    with_local s m c w = (Panic p, w'').
  Proof. intros E E'. unfold with_local. by rewrite (on_unwind_Panic _ _ _ _ _ _ E E'). Qed.

  Lemma new_sok w : wok w -> srep Cap w (sv_new Cap) [] /\ sborn w (sv_new Cap) w [].
  Proof.
    intros Hw. split; [split; [done|by apply skrep_new]|]. unfold sborn. rewrite app_nil_r.
    split_and!; try done.
  Qed.

  (** ** Dropping *)
  Lemma drop_quiet_s w s xs :
    srep Cap w s xs -> culprits drop_panics xs = [] ->
    exists s' w', sv_drop (s, w) = (Ret tt, (s', w')) /\ sgone s w w' xs.
  Proof.
    intros [Hw Hr] Hq. destruct s as [[k|v] m]; simpl in Hr.
    - eexists _, _. split.
      { apply redirect_stack. unfold sk_drop. rewrite bind_get_fst. destruct (proj1 Hr).
        pose proof (sk_drop_all Hz Cap k xs w Hr) as E. rewrite drops_until_up_to, Hq, up_to_1_all in E by done.
        destruct Hr as (Hl&_). rewrite Hl. exact E. }
      unfold sgone, srest. simpl. rewrite heap_add_drops, drops_add_drops, cur_add_drops, next_add_drops.
      split_and!; try done. by apply wok_drops.
    - destruct (vec_drop_quiet Hz w v xs Hr Hq) as (w'&He&Hg).
      eexists _, _. split; [by apply redirect_heap|]. exact Hg.
  Qed.
  (** Dropping, whatever the destructors do. *)
  Lemma drop_exact_s w s xs :
    srep Cap w s xs ->
    exists s' w', sv_drop (s, w) = (match culprits drop_panics xs with [] => Ret tt | _ => Panic PDrop end, (s', w')) /\
      drops w' = drops w ++ up_to drop_panics 1 xs /\
      heap w' = match culprits drop_panics xs with [] => srest s w | _ => heap w end.
  Proof.
    intros Hr. destruct (culprits drop_panics xs) as [|c l] eqn:E.
    { destruct (drop_quiet_s w s xs Hr E) as (s'&w'&He&(Hg1&Hg2&_)). exists s', w'.
      rewrite up_to_1_all by done. done. }
    destruct Hr as [Hw Hr]. destruct s as [[k|v] m]; simpl in Hr.
    - eexists _, _. split.
      { apply redirect_stack. unfold sk_drop. rewrite bind_get_fst. destruct (proj1 Hr).
        pose proof (sk_drop_all Hz Cap k xs w Hr) as E'. rewrite drops_until_up_to, E in E'.
        destruct Hr as (Hl&_). rewrite Hl. exact E'. }
      by rewrite heap_add_drops, drops_add_drops.
    - destruct (drop_exact Hz w v xs Hr) as (w'&He&Hd&Hh). rewrite E in He, Hh.
      unfold vec_drop_val in He. destruct (vec_drop (v, w)) as [r [v' w1]] eqn:Ev. injection He as -> <-.
      eexists _, _. split; [by apply redirect_heap|]. done.
  Qed.
  Lemma drop_sok w s xs :
    srep Cap w s xs -> no_drop_panic ->
    exists s' w', sv_drop (s, w) = (Ret tt, (s', w')) /\ sgone s w w' xs.
  Proof. intros Hr Hnd. apply drop_quiet_s; [done|by apply culprits_quiet]. Qed.
  Lemma drop_val_exact_s w s xs :
    srep Cap w s xs ->
    exists w', sv_drop_val s w = (match culprits drop_panics xs with [] => Ret tt | _ => Panic PDrop end, w') /\
      drops w' = drops w ++ up_to drop_panics 1 xs /\
      heap w' = match culprits drop_panics xs with [] => srest s w | _ => heap w end.
  Proof.
    intros Hr. destruct (drop_exact_s w s xs Hr) as (s'&w'&He&Hg). exists w'. split; [|done].
    unfold sv_drop_val. by rewrite He.
  Qed.
  Lemma drop_val_quiet_s w s xs :
    srep Cap w s xs -> culprits drop_panics xs = [] ->
    exists w', sv_drop_val s w = (Ret tt, w') /\ sgone s w w' xs.
  Proof.
    intros Hr Hq. destruct (drop_quiet_s w s xs Hr Hq) as (s'&w'&He&Hg). exists w'. split; [|done].
    unfold sv_drop_val. by rewrite He.
  Qed.
  Lemma drop_val_sok w s xs :
    srep Cap w s xs -> no_drop_panic ->
    exists w', sv_drop_val s w = (Ret tt, w') /\ sgone s w w' xs.
  Proof. intros Hr Hnd. apply drop_val_quiet_s; [done|by apply culprits_quiet]. Qed.

  (** ** Many elements *)
  Lemma push_all_sok it : forall w s xs,
    srep Cap w s xs -> fits (llen xs + llen it + 8) ->
    exists r s' w' ys ds, sv_push_all Cap it (s, w) = (r, (s', w')) /\
      srep Cap w' s' (xs ++ ys) /\ skeeps s w s' w' ds /\
      hcap s' <= N.max (hcap s) (llen xs + llen it + 8) /\
      ((r = Ret tt /\ it = Some <$> ys /\ ds = [])
       \/ (r = Panic PUser /\ (exists it', it = (Some <$> ys) ++ None :: it') /\ ds = [])
       \/ (exists y it', it = (Some <$> ys) ++ Some y :: it' /\ r = unwound PUnwrap y /\ ds = [y] /\
             refuses)).
  Proof.
    induction it as [|[x|] it IH]; intros w s xs Hr Hf.
    - exists (Ret tt), s, w, [], []. rewrite app_nil_r. split; [done|]. split; [done|]. split; [by apply skeeps_refl|]. split; [lia|]. by left.
    - simpl in Hf. simpl sv_push_all.
      destruct (push_sok Hz Cap HCap w s xs x Hr) as (r&s1&w1&He&Hcase).
      { eapply (fits_le Hz); [|exact Hf]. lia. }
      destruct Hcase as [(->&Hr1&Hk1&Hh1)|(->&Hr1&Hk1&->&Hrf)].
      + erewrite bind_Ret by exact He.
        assert (llen (xs ++ [x]) = llen xs + 1) as Hlx by (rewrite app_length; simpl; lia).
        destruct (IH w1 s1 (xs ++ [x]) Hr1) as (r&s'&w'&ys&ds&He'&Hr'&Hk'&Hh'&Hc').
        { rewrite Hlx. eapply (fits_le Hz); [|exact Hf]. lia. }
        exists r, s', w', (x :: ys), ds. rewrite <-app_assoc in Hr'. rewrite Hlx in Hh'.
        split; [done|]. split; [done|]. split; [by eapply skeeps_trans_l|]. split; [simpl; lia|].
        destruct Hc' as [(->&->&->)|[(->&(it'&->)&->)|(y&it'&->&->&->&Hrf)]].
        * by left.
        * right. left. split_and!; try done. by exists it'.
        * right. right. exists y, it'. done.
      + exists (unwound PUnwrap x), s, w1, [], [x]. rewrite app_nil_r.
        split; [by apply bind_unwound_s|]. split; [done|]. split; [done|]. split; [lia|].
        right. right. by exists x, it.
    - exists (Panic PUser), s, w, [], []. rewrite app_nil_r.
      split; [done|]. split; [done|]. split; [by apply skeeps_refl|]. split; [lia|].
      right. left. split_and!; try done. by exists it.
  Qed.

  Lemma extend_sok it h w s xs :
    srep Cap w s xs -> fits (llen xs + N.max (llen it) h + 8) ->
    exists r s' w' ys ds, sv_extend Cap it h (s, w) = (r, (s', w')) /\
      srep Cap w' s' (xs ++ ys) /\ skeeps s w s' w' ds /\
      hcap s' <= N.max (hcap s) (llen xs + N.max (llen it) h + 8) /\
      ((r = Ret tt /\ it = Some <$> ys /\ ds = [])
       \/ (r = Panic PUser /\ (exists it', it = (Some <$> ys) ++ None :: it') /\ ds = [])
       \/ (r = Panic PUnwrap /\ ys = [] /\ ds = [] /\ refuses)
       \/ (exists y it', it = (Some <$> ys) ++ Some y :: it' /\ r = unwound PUnwrap y /\ ds = [y] /\
             refuses)).
  Proof.
    intros Hr Hf. unfold sv_extend.
    destruct (reserve_sok Hz Cap HCap w s xs h Hr) as (r&s1&w1&He&Hk&Hr1&Hh&_&Hcase).
    { eapply (fits_le Hz); [|exact Hf]. lia. }
    destruct Hcase as [(->&_)|(->&->&Hrf)].
    - erewrite bind_Ret by exact He.
      destruct (push_all_sok it w1 s1 xs Hr1) as (r&s'&w'&ys&ds&He'&Hr'&Hk'&Hh'&Hc').
      { eapply (fits_le Hz); [|exact Hf]. lia. }
      exists r, s', w', ys, ds. split; [done|]. split; [done|]. split; [by eapply skeeps_trans_l|].
      split; [lia|]. destruct Hc' as [?|[?|?]]; [by left|right; by left|right; right; by right].
    - exists (Panic PUnwrap), s, w1, [], []. rewrite app_nil_r.
      split; [by erewrite bind_Panic by exact He|]. split; [done|]. split; [done|]. split; [lia|].
      right. right. by left.
  Qed.

  Lemma push_clones_sok l : forall w s xs,
    srep Cap w s xs -> fits (llen xs + llen l + 8) ->
    exists r s' w' ys ds, sv_push_clones Cap l (s, w) = (r, (s', w')) /\
      srep Cap w' s' (xs ++ ys) /\ skeeps s w s' w' ds /\
      hcap s' <= N.max (hcap s) (llen xs + llen l + 8) /\
      ((r = Ret tt /\ mapM t_clone l = Some ys /\ ds = [])
       \/ (r = Panic PUser /\ (exists l1 x l2, l = l1 ++ x :: l2 /\ mapM t_clone l1 = Some ys /\
             t_clone x = None) /\ ds = [])
       \/ (exists l1 x l2 y, l = l1 ++ x :: l2 /\ mapM t_clone l1 = Some ys /\
             t_clone x = Some y /\ r = unwound PUnwrap y /\ ds = [y] /\ refuses)).
  Proof.
    induction l as [|x l IH]; intros w s xs Hr Hf.
    - exists (Ret tt), s, w, [], []. rewrite app_nil_r. split; [done|]. split; [done|]. split; [by apply skeeps_refl|]. split; [lia|]. by left.
    - simpl in Hf. simpl sv_push_clones. unfold clone_val.
      destruct (t_clone x) as [y|] eqn:Hx; cycle 1.
      { exists (Panic PUser), s, w, [], []. rewrite app_nil_r.
        split; [done|]. split; [done|]. split; [by apply skeeps_refl|]. split; [lia|].
        right. left. split_and!; try done. by exists [], x, l. }
      erewrite bind_on_snd_Ret by reflexivity.
      destruct (push_sok Hz Cap HCap w s xs y Hr) as (r&s1&w1&He&Hcase).
      { eapply (fits_le Hz); [|exact Hf]. lia. }
      destruct Hcase as [(->&Hr1&Hk1&Hh1)|(->&Hr1&Hk1&->&Hrf)].
      + erewrite bind_Ret by exact He.
        assert (llen (xs ++ [y]) = llen xs + 1) as Hlx by (rewrite app_length; simpl; lia).
        destruct (IH w1 s1 (xs ++ [y]) Hr1) as (r&s'&w'&ys&ds&He'&Hr'&Hk'&Hh'&Hc').
        { rewrite Hlx. eapply (fits_le Hz); [|exact Hf]. lia. }
        exists r, s', w', (y :: ys), ds. rewrite <-app_assoc in Hr'. rewrite Hlx in Hh'.
        split; [done|]. split; [done|]. split; [by eapply skeeps_trans_l|]. split; [simpl; lia|].
        destruct Hc' as [(->&Hm&->)|[(->&(l1&z&l2&->&Hm&Hzz)&->)|(l1&z&l2&y'&->&Hm&Hzz&->&->&Hrf)]].
        * left. split_and!; try done. simpl. by rewrite Hx, Hm.
        * right. left. split_and!; try done. exists (x :: l1), z, l2. simpl. by rewrite Hx, Hm.
        * right. right. exists (x :: l1), z, l2, y'. simpl. by rewrite Hx, Hm.
      + exists (unwound PUnwrap y), s, w1, [], [y]. rewrite app_nil_r.
        split; [by apply bind_unwound_s|]. split; [done|]. split; [done|]. split; [lia|].
        right. right. by exists [], x, l, y.
  Qed.
  Lemma extend_slice_sok l w s xs :
    srep Cap w s xs -> fits (llen xs + llen l + 8) ->
    exists r s' w' ys ds, sv_extend_from_slice Cap l (s, w) = (r, (s', w')) /\
      srep Cap w' s' (xs ++ ys) /\ skeeps s w s' w' ds /\
      hcap s' <= N.max (hcap s) (llen xs + llen l + 8) /\
      ((r = Ret tt /\ mapM t_clone l = Some ys /\ ds = [])
       \/ (r = Panic PUser /\ (exists l1 x l2, l = l1 ++ x :: l2 /\ mapM t_clone l1 = Some ys /\
             t_clone x = None) /\ ds = [])
       \/ (r = Panic PUnwrap /\ ys = [] /\ ds = [] /\ refuses)
       \/ (exists l1 x l2 y, l = l1 ++ x :: l2 /\ mapM t_clone l1 = Some ys /\
             t_clone x = Some y /\ r = unwound PUnwrap y /\ ds = [y] /\ refuses)).
  Proof.
    intros Hr Hf. unfold sv_extend_from_slice.
    destruct (reserve_sok Hz Cap HCap w s xs (llen l) Hr Hf) as (r&s1&w1&He&Hk&Hr1&Hh&_&Hcase).
    destruct Hcase as [(->&_)|(->&->&Hrf)].
    - erewrite bind_Ret by exact He.
      destruct (push_clones_sok l w1 s1 xs Hr1 Hf) as (r&s'&w'&ys&ds&He'&Hr'&Hk'&Hh'&Hc').
      exists r, s', w', ys, ds. split; [done|]. split; [done|]. split; [by eapply skeeps_trans_l|].
      split; [lia|]. destruct Hc' as [?|[?|?]]; [by left|right; by left|right; right; by right].
    - exists (Panic PUnwrap), s, w1, [], []. rewrite app_nil_r.
      split; [by erewrite bind_Panic by exact He|]. split; [done|]. split; [done|]. split; [lia|].
      right. right. by left.
  Qed.

  (** ** Building *)
  Lemma with_capacity_sok w c :
    wok w -> fits c ->
    exists r w', sv_with_capacity Cap c w = (r, w') /\
      ((exists s, r = Ret s /\ srep Cap w' s [] /\ sborn w s w' [] /\ c <= sv_capacity Cap s /\
          hcap s <= c)
       \/ (r = Panic PUnwrap /\ still w w' [] /\ refuses)).
  Proof.
    intros Hw Hf. unfold sv_with_capacity, sv_with_capacity_and_marker, sv_try_with_capacity_and_marker.
    destruct (N.ltb_spec Cap c) as [Hlt|Hge].
    - destruct (try_with_capacity_ok Hz w c MNone Hw Hf) as (r&w'&He&Hd&Hcu&Hn&Hw'&Hcase).
      rewrite bind_assoc. erewrite bind_Ret by exact He.
      destruct Hcase as [(v&->&Hr&Hv&Hvc)|(->&Hh&Hrf)].
      + eexists _, w'. split; [reflexivity|]. left. eexists. split; [done|].
        split; [by apply srep_heap|]. split.
        { unfold sborn. rewrite app_nil_r. split_and!; done. }
        unfold sv_capacity, hcap. simpl. lia.
      + eexists _, w'. split; [reflexivity|]. right. split; [done|]. split; [|unfold refuses; by eauto].
        unfold still. rewrite app_nil_r. split_and!; done.
    - eexists _, w. split; [reflexivity|]. left. eexists. split; [done|].
      destruct (new_sok w Hw) as [H1 H2]. split; [exact H1|]. split; [exact H2|].
      unfold sv_capacity, hcap. simpl. lia.
  Qed.

  (** A panicking call on a local vector whose drop may panic as well. *)
  Lemma with_local_settle {A} s (m : MS A) w p d s' w1 xs :
    m (s, w) = (settle drop_panics (Panic p) d, (s', w1)) -> srep Cap w1 s' xs ->
    exists w2, with_local s m sv_drop w = (settle drop_panics (Panic p) (d ++ xs), w2) /\
      (culprits drop_panics (d ++ xs) = [] -> sgone s' w1 w2 xs).
  Proof.
    intros Hm Hr. unfold with_local, on_unwind. rewrite Hm, !settle_panic, culprits_app.
    destruct (culprits drop_panics d) as [|c l] eqn:Ed; [|by eexists].
    destruct (culprits drop_panics xs) as [|c l] eqn:Ex; simpl.
    - destruct (drop_quiet_s w1 s' xs Hr Ex) as (s2&w2&He&Hg). rewrite He. by exists w2.
    - destruct (drop_exact_s w1 s' xs Hr) as (s2&w2&He&Hg). rewrite Ex in He. rewrite He. by exists w2.
  Qed.

  Lemma from_iter_gen it h w :
    wok w -> fits (N.max (llen it) h + 8) ->
    exists r w' ys ds, sv_from_iter Cap it h w = (r, w') /\
      ((exists s, r = Ret s /\ srep Cap w' s ys /\ sborn w s w' [] /\ it = Some <$> ys /\
          hcap s <= N.max (llen it) h + 8)
       \/ (r = settle drop_panics (Panic PUser) ds /\ (exists it', it = (Some <$> ys) ++ None :: it') /\ ds = ys /\
             (culprits drop_panics ds = [] -> still w w' ds))
       \/ (r = Panic PUnwrap /\ ys = [] /\ ds = [] /\ refuses /\ still w w' ds)
       \/ (exists y it', it = (Some <$> ys) ++ Some y :: it' /\ r = settle drop_panics (Panic PUnwrap) ds /\
             ds = y :: ys /\ refuses /\ (culprits drop_panics ds = [] -> still w w' ds))).
  Proof.
    intros Hw Hf. unfold sv_from_iter. destruct (new_sok w Hw) as [Hr0 Hb0].
    destruct (extend_sok it h w (sv_new Cap) [] Hr0) as (r&s'&w1&ys&ds&He&Hr1&Hk1&Hh1&Hcase); [exact Hf|].
    simpl in Hr1. change (hcap (sv_new Cap)) with 0 in Hh1. simpl in Hh1.
    pose proof (sborn_keeps _ _ _ _ _ _ _ Hb0 Hk1 (proj1 Hr1)) as Hb1. rewrite app_nil_l in Hb1.
    destruct Hcase as [(->&->&->)|[(->&Hit&->)|[(->&->&->&Hrf)|(y&it'&->&->&->&Hrf)]]].
    - eexists _, w1, ys, []. erewrite bind_Ret by (by apply with_local_Ret_s).
      split; [reflexivity|]. left. exists s'. split_and!; try done. lia.
    - rewrite <-(settle_nil (Panic PUser)) in He.
      destruct (with_local_settle _ _ _ _ _ _ _ _ He Hr1) as (w2&Hd2&Hg).
      eexists _, w2, ys, ys. erewrite bind_settle_panic by exact Hd2.
      split; [reflexivity|]. right. left. split_and!; try done.
      intros E. exact (sborn_gone _ _ _ _ _ _ Hb1 (Hg E)).
    - rewrite <-(settle_nil (Panic PUnwrap)) in He.
      destruct (with_local_settle _ _ _ _ _ _ _ _ He Hr1) as (w2&Hd2&Hg).
      eexists _, w2, [], []. erewrite bind_settle_panic by exact Hd2.
      split; [reflexivity|]. right. right. left. split_and!; try done.
      exact (sborn_gone _ _ _ _ _ _ Hb1 (Hg eq_refl)).
    - rewrite settle_unwound in He.
      destruct (with_local_settle _ _ _ _ _ _ _ _ He Hr1) as (w2&Hd2&Hg).
      eexists _, w2, ys, (y :: ys). erewrite bind_settle_panic by exact Hd2.
      split; [reflexivity|]. right. right. right. exists y, it'. split_and!; try done.
      intros E. exact (sborn_gone _ _ _ _ _ _ Hb1 (Hg E)).
  Qed.
  Lemma from_iter_sok it h w :
    wok w -> fits (N.max (llen it) h + 8) -> no_drop_panic ->
    exists r w' ys ds, sv_from_iter Cap it h w = (r, w') /\
      ((exists s, r = Ret s /\ srep Cap w' s ys /\ sborn w s w' [] /\ it = Some <$> ys /\
          hcap s <= N.max (llen it) h + 8)
       \/ (r = Panic PUser /\ (exists it', it = (Some <$> ys) ++ None :: it') /\ ds = ys /\ still w w' ds)
       \/ (r = Panic PUnwrap /\ ys = [] /\ ds = [] /\ refuses /\ still w w' ds)
       \/ (exists y it', it = (Some <$> ys) ++ Some y :: it' /\ r = Panic PUnwrap /\ ds = y :: ys /\
             refuses /\ still w w' ds)).
  Proof.
    intros Hw Hf Hnd. destruct (from_iter_gen it h w Hw Hf) as (r&w'&ys&ds&He&Hcase).
    exists r, w', ys, ds. split; [done|]. pose proof (culprits_quiet ds Hnd) as Hq.
    destruct Hcase as [H|[(->&H&Hd&Hs)|[H|(y&it'&H&->&Hd&Hrf&Hs)]]].
    - by left.
    - right. left. rewrite settle_quiet by done. split_and!; try done. by apply Hs.
    - right. right. by left.
    - right. right. right. exists y, it'. rewrite settle_quiet by done. split_and!; try done. by apply Hs.
  Qed.

  (** ** Moving elements between two vectors *)
  Definition with_len (d : store T) (n : N) : store T :=
    match d with Stack k => Stack (StackVec (sk_slots k) n) | Heap v => Heap (Vec (v_ptr v) n) end.

  Lemma store_out_ok C w o ys i n :
    srep C w o ys -> 0 < n -> i + n <= llen ys ->
    store_out (sv_store o) i n w = (Ret (Some <$> take (N.to_nat n) (drop (N.to_nat i) ys)), w).
  Proof.
    intros [Hw Hr] Hn Hi. assert (ys <> []) as Hne by (intros ->; simpl in Hi; lia).
    destruct o as [[k|v] m]; simpl in *.
    - destruct Hr as (Hl&Hc&rest&Hs).
      rewrite (proj2 (N.leb_le _ _)) by (rewrite Hs, app_length, fmap_length; lia).
      rewrite Hs. rewrite drop_app_le by (rewrite fmap_length; lia).
      rewrite take_app_le by (rewrite drop_length, fmap_length; lia).
      by rewrite <-fmap_drop, <-fmap_take.
    - destruct Hr as [Hl [rest Ho]].
      assert ((Some <$> ys) ++ rest <> []) as Hs0 by (by destruct ys).
      pose proof (owns_slots _ _ _ Ho Hs0) as Hsl.
      erewrite copy_out_slots; [|exact Hsl|rewrite app_length, fmap_length; lia].
      rewrite drop_app_le by (rewrite fmap_length; lia).
      rewrite take_app_le by (rewrite drop_length, fmap_length; lia).
      by rewrite <-fmap_drop, <-fmap_take.
  Qed.

  Lemma store_in_ok w s xs l :
    srep Cap w s xs -> llen xs + llen l <= sv_capacity Cap s -> l <> [] ->
    exists d w', store_in (sv_store s) (llen xs) (Some <$> l) w = (Ret d, w') /\
      sv_set_len Cap (llen xs + llen l) (SVec d (sv_marker s), w') =
        (Ret tt, (SVec (with_len d (llen xs + llen l)) (sv_marker s), w')) /\
      srep Cap w' (SVec (with_len d (llen xs + llen l)) (sv_marker s)) (xs ++ l) /\
      skeeps s w (SVec (with_len d (llen xs + llen l)) (sv_marker s)) w' [] /\
      hcap (SVec (with_len d (llen xs + llen l)) (sv_marker s)) = hcap s.
  Proof.
    intros [Hw Hr] Hc Hne. destruct s as [[k|v] m]; unfold sv_capacity in Hc; simpl in *.
    - destruct Hr as (Hl&HC&rest&Hs).
      rewrite (proj2 (N.leb_le _ _)) by (rewrite fmap_length; lia).
      eexists _, w. split; [reflexivity|]. split.
      { apply redirect_stack. simpl. apply (sk_set_len_eq Hz). lia. }
      split; [|split; [apply skeeps_stack0|done]].
      split; [done|]. simpl. split_and!; simpl.
      + rewrite app_length. lia.
      + rewrite !app_length, take_length, drop_length, fmap_length. lia.
      + exists (drop (length l) rest). rewrite Hs, Nat2N.id, fmap_length.
        rewrite <-(fmap_length Some xs) at 1 2. rewrite take_app, drop_add_app by done.
        by rewrite fmap_app, <-app_assoc.
    - destruct (copy_tail_ok Hz w v xs l Hr Hc Hne) as (w'&He&Hr'&Hk).
      erewrite bind_Ret by exact He. eexists _, w'. split; [reflexivity|]. split.
      { apply redirect_heap. destruct Hr' as [_ [rst Ho]].
        apply (vec_set_len_eq Hz w' v ((Some <$> xs ++ l) ++ rst)); [exact Ho|].
        rewrite !app_length, fmap_length, app_length. lia. }
      split; [by apply srep_heap|]. split; [by apply skeeps_heap|]. done.
  Qed.

  Lemma with_len_srep C w o ys n :
    srep C w o ys -> n <= llen ys ->
    srep C w (SVec (with_len (sv_store o) n) (sv_marker o)) (take (N.to_nat n) ys).
  Proof.
    intros [Hw Hr] Hn. split; [done|]. destruct o as [[k|v] m]; simpl in *.
    - by apply (skrep_take Hz).
    - by apply (rep_take Hz).
  Qed.

  Lemma append_sok w s xs o ys :
    srep Cap w s xs -> srep Cap w o ys -> sapart s o -> fits (llen xs + llen ys + 8) ->
    exists r s' w', sv_append Cap o (s, w) = (r, (s', w')) /\ skeeps s w s' w' [] /\ sapart s' o /\
      hcap s' <= N.max (hcap s) (llen xs + llen ys + 8) /\
      ((r = Ret (SVec (with_len (sv_store o) 0) (sv_marker o)) /\ srep Cap w' s' (xs ++ ys) /\
          srep Cap w' o ys)
       \/ (r = Panic PUnwrap /\ s' = s /\ srep Cap w' s' xs /\ srep Cap w' o ys /\ refuses)).
  Proof.
    intros Hr Ho Ha Hf. pose proof (srep_len Hz Cap HCap _ _ _ Ho) as (Hlo&_).
    pose proof (fits_bound Hz _ Hf) as Hb.
    unfold sv_append. rewrite Hlo.
    destruct (reserve_sok Hz Cap HCap w s xs (llen ys) Hr Hf) as (r&s1&w1&He&Hk&Hr1&Hh&_&Hcase).
    destruct (sframe Cap _ _ _ _ _ _ _ Ho Ha Hk (proj1 Hr1)) as [Ho1 Ha1].
    destruct Hcase as [(->&Hroom&_)|(->&->&Hrf)].
    2: { erewrite bind_Panic by exact He. eexists _, s, w1. split; [reflexivity|].
         split; [done|]. split; [done|]. split; [lia|]. right. split_and!; done. }
    erewrite bind_Ret by exact He. rewrite bind_get_fst.
    pose proof (srep_len Hz Cap HCap _ _ _ Hr1) as (Hl1&_). rewrite Hl1.
    assert (exists d w', store_copy (sv_store o) 0 (sv_store s1) (llen xs) (llen ys) w1 = (Ret d, w') /\
      sv_set_len Cap (llen xs + llen ys) (SVec d (sv_marker s1), w') =
        (Ret tt, (SVec (with_len d (llen xs + llen ys)) (sv_marker s1), w')) /\
      srep Cap w' (SVec (with_len d (llen xs + llen ys)) (sv_marker s1)) (xs ++ ys) /\
      skeeps s1 w1 (SVec (with_len d (llen xs + llen ys)) (sv_marker s1)) w' [] /\
      hcap (SVec (with_len d (llen xs + llen ys)) (sv_marker s1)) = hcap s1) as (d&w2&He2&Hs2&Hr2&Hk2&Hh2).
    { unfold store_copy. rewrite sz_pos, orb_false_l by done.
      destruct (N.eqb_spec (llen ys) 0) as [H0|H0].
      - destruct ys; [|simpl in H0; lia]. eexists _, w1. split; [reflexivity|].
        change (llen []) with 0. rewrite N.add_0_r, app_nil_r.
        pose proof (with_len_srep Cap w1 s1 xs (llen xs) Hr1) as Hr1'. rewrite Nat2N.id, firstn_all in Hr1'.
        split; [|split; [apply Hr1'; lia|]].
        + destruct s1 as [[k|v] m]; unfold sv_capacity in Hroom; simpl in *.
          * apply redirect_stack. apply (sk_set_len_eq Hz). lia.
          * apply redirect_heap. destruct Hr1 as [_ [_ [rst Hos]]].
            apply (vec_set_len_eq Hz w1 v ((Some <$> xs) ++ rst)); [exact Hos|].
            rewrite !app_length, fmap_length. lia.
        + destruct s1 as [[k|v] m]; simpl; (split; [first [by apply skeeps_stack0|by apply skeeps_heap, keeps_len]|done]).
      - cbn iota. erewrite bind_Ret by (eapply store_out_ok; [exact Ho1|lia|lia]).
        change (N.to_nat 0) with 0%nat. rewrite drop_0, Nat2N.id, firstn_all.
        apply store_in_ok; [done|lia|]. intros ->. done. }
    erewrite bind_on_snd_Ret by exact He2.
    erewrite bind_Ret by reflexivity. rewrite bind_uadd by (unfold isize_max, usize_max in *; lia).
    erewrite bind_Ret by exact Hs2. eexists _, _, w2. split; [reflexivity|].
    destruct (sframe Cap _ _ _ _ _ _ _ Ho1 Ha1 Hk2 (proj1 Hr2)) as [Ho2 Ha2].
    split; [by eapply skeeps_trans_l|]. split; [done|]. split; [lia|].
    left. split_and!; done.
  Qed.
End small3.
