(** Boxes, capacity and reservation details, shrinking. *)
From Verif Require Export LogProofs.
From Coq Require Import ZifyBool ZifyNat ZifyN.

Section box.
  Context {EN : Env} {T : Type} {EL : Elem T} (Hz : 0 < t_size).
  Notation W := (world T).
  Implicit Types (w : W) (x : T).

  Definition box_block (a : N) (x : T) : block T := Block a (Layout t_size t_align) [Some x].

  Lemma alloc_one w sc m :
    cur_scope w = Some sc ->
    alloc_layout (Layout t_size t_align) 1 (Selector m t_name) w =
      let a := e_alloc_for sc (Selector m t_name) in
      let l := Layout t_size t_align in
      let sel := EvSelect sc (Selector m t_name) in
      if e_aok (ncalls w) t_size then
        (Ret (Some (SPtr (Blk (next_id w)) 1 a m)),
         World (<[next_id w := Block a l [None]]> (heap w)) (next_id w + 1) (S (ncalls w))
           (events w ++ [sel; EvAlloc a l (Some (next_id w))]) (drops w) (cur_scope w))
      else
        (Ret None,
         World (heap w) (next_id w) (S (ncalls w)) (events w ++ [sel; EvAlloc a l None])
           (drops w) (cur_scope w)).
  Proof.
    intros Hc. unfold alloc_layout, alloc_for, bind. rewrite Hc. unfold ga_alloc. simpl.
    destruct (N.eqb_spec t_size 0); [lia|].
    destruct (e_aok (ncalls w) t_size); simpl; rewrite <-app_assoc; [|by rewrite Hc].
    rewrite N.div_same by lia. by rewrite Hc.
  Qed.

  Lemma box_new_ok w x m sc :
    cur_scope w = Some sc -> t_needs_drop = false -> e_aok (ncalls w) t_size = true ->
    let a := e_alloc_for sc (Selector m t_name) in
    box_new_with x m w =
      (Ret (SPtr (Blk (next_id w)) 1 a m),
       World (<[next_id w := box_block a x]> (heap w)) (next_id w + 1) (S (ncalls w))
         (events w ++ [EvSelect sc (Selector m t_name);
                       EvAlloc a (Layout t_size t_align) (Some (next_id w))])
         (drops w) (cur_scope w)).
  Proof.
    intros Hc Hd Ha a. unfold box_new_with, sp_alloc_val. rewrite bind_assoc.
    erewrite bind_Ret.
    2: { apply on_unwind_Ret. rewrite (alloc_one _ sc) by done. rewrite Ha. reflexivity. }
    rewrite Hd. rewrite !bind_assoc, bind_ret. rewrite bind_assoc.
    unfold write_at. destruct (N.eqb_spec t_size 0); [lia|].
    unfold get_slots, put_slots, bind, unwrap, ret. simpl.
    rewrite lookup_insert. simpl. rewrite lookup_insert. simpl. unfold set_heap. simpl.
    by rewrite insert_insert.
  Qed.

  Lemma box_new_glue w x m sc :
    cur_scope w = Some sc -> t_needs_drop = true -> e_aok (ncalls w) t_size = true ->
    fst (box_new_with x m w) = UB UninitDrop.
  Proof.
    intros Hc Hd Ha. unfold box_new_with, sp_alloc_val. rewrite bind_assoc.
    erewrite bind_Ret.
    2: { apply on_unwind_Ret. rewrite (alloc_one _ sc) by done. rewrite Ha. reflexivity. }
    rewrite Hd, !bind_assoc. unfold drop_at. destruct (N.eqb_spec t_size 0); [lia|].
    rewrite Hd. unfold get_slots, bind. simpl. rewrite lookup_insert. done.
  Qed.

  Lemma box_refused w x m sc :
    cur_scope w = Some sc -> e_aok (ncalls w) t_size = false -> t_drop_panics x = false ->
    exists w', sp_alloc_val x (Selector m t_name) w = (Ret (Err AllocErr), w') /\
      box_new_with x m w = (Panic PUnwrap, w') /\
      heap w' = heap w /\ drops w' = drops w ++ [x].
  Proof.
    intros Hc Ha Hp.
    assert (sp_alloc_val x (Selector m t_name) w =
      (Ret (Err AllocErr), add_drop x (World (heap w) (next_id w) (S (ncalls w))
         (events w ++ [EvSelect sc (Selector m t_name);
                       EvAlloc (e_alloc_for sc (Selector m t_name)) (Layout t_size t_align) None])
           (drops w) (cur_scope w)))) as He.
    { unfold sp_alloc_val. erewrite bind_Ret.
      2: { apply on_unwind_Ret. rewrite (alloc_one _ sc) by done. rewrite Ha. reflexivity. }
      cbv iota beta. erewrite bind_Ret; [reflexivity|]. unfold drop_val.
      by rewrite Hp, andb_false_r. }
    eexists. split; [exact He|]. unfold box_new_with. erewrite bind_Ret by exact He. done.
  Qed.

  Lemma box_no_env w x m :
    cur_scope w = None -> t_drop_panics x = false ->
    exists w', box_new_with x m w = (Panic PNoEnv, w') /\ heap w' = heap w /\ drops w' = drops w ++ [x].
  Proof.
    intros Hc Hp. unfold box_new_with, sp_alloc_val, alloc_layout, alloc_for, on_unwind, bind.
    rewrite Hc. unfold drop_val. rewrite Hp, andb_false_r. simpl. eauto.
  Qed.

  (** A box whose memory is intact. *)
  Definition box_at (w : W) (p : sptr) (b : N) (x : T) : Prop :=
    sp_ptr p = Blk b /\ sp_len p = 1 /\ heap w !! b = Some (box_block (sp_alloc p) x).

  Lemma box_layout p : sp_len p = 1 -> layout_of p = Layout t_size t_align.
  Proof. intros H. unfold layout_of. by rewrite H, N.mul_1_l. Qed.

  Lemma box_slots w p b x : box_at w p b x -> slots_at w (sp_ptr p) [Some x].
  Proof. intros (->&_&H). simpl. by exists (box_block (sp_alloc p) x). Qed.

  Lemma box_deref w p b x : box_at w p b x -> sp_deref p w = (Ret x, w).
  Proof. intros Hb. eapply read_at_slots; [done|by eapply box_slots|done]. Qed.

  Lemma box_dealloc w p b x : box_at w p b x ->
    sp_dealloc p w = (Ret tt, add_event (EvDealloc (sp_alloc p) b (Layout t_size t_align))
                                (set_heap (delete b (heap w)) w)).
  Proof.
    intros (Hp&Hl&Hh). unfold sp_dealloc, ga_dealloc. rewrite Hp, Hh, box_layout by done.
    simpl. by rewrite decide_True.
  Qed.

  Lemma box_drop_ok w p b x : box_at w p b x -> t_needs_drop && t_drop_panics x = false ->
    box_drop p w = (Ret tt, add_event (EvDealloc (sp_alloc p) b (Layout t_size t_align))
                     (set_heap (delete b (heap w)) (add_drop x w))).
  Proof.
    intros Hb Hp. unfold box_drop, sp_drop. pose proof Hb as (Hq&Hl&Hh). rewrite Hl.
    change (N.to_nat 1) with (length [x]).
    erewrite bind_Ret.
    2: { unfold drop_slice. erewrite drop_slice_slots; [|done|by eapply box_slots|done].
         simpl. rewrite Hp. reflexivity. }
    simpl. rewrite (box_dealloc (add_drop x w) p b x) by done. done.
  Qed.

  Lemma box_into_inner_UB w p b x : box_at w p b x -> fst (box_into_inner p w) = UB UseAfterFree.
  Proof.
    intros Hb. unfold box_into_inner, sp_into_inner. pose proof Hb as (Hq&Hl&Hh).
    erewrite bind_Ret by (by eapply box_deref). erewrite bind_Ret by (by eapply box_dealloc).
    unfold sp_drop. rewrite Hl. unfold drop_slice. change (N.to_nat 1) with 1%nat. simpl.
    unfold drop_at. destruct (N.eqb_spec t_size 0); [lia|]. rewrite Hq.
    destruct t_needs_drop.
    - unfold get_slots, bind. simpl. by rewrite lookup_delete.
    - unfold get_slots, bind. simpl. rewrite lookup_delete. unfold sp_dealloc, ga_dealloc. rewrite Hq.
      simpl. by rewrite lookup_delete.
  Qed.
End box.

(** A box of a zero-sized type asks the allocator for zero bytes. *)
Lemma box_zst {EN : Env} {T : Type} {EL : Elem T} (w : world T) x m sc :
  t_size = 0 -> cur_scope w = Some sc -> fst (box_new_with x m w) = UB ZeroSizeAlloc.
Proof.
  intros Hz Hc. unfold box_new_with, sp_alloc_val, alloc_layout, alloc_for, on_unwind, bind.
  rewrite Hc. unfold ga_alloc. simpl. by rewrite Hz.
Qed.

Section vec6.
  Context {EN : Env} {T : Type} {EL : Elem T} (Hz : 0 < t_size).
  Notation W := (world T).
  Notation MV := (M (vec * W)).
  Implicit Types (w : W) (v : vec) (s : list (option T)) (xs : list T).

  Lemma try_with_capacity_big w c m :
    limit < c * t_size -> vec_try_with_capacity_and_marker c m w = (Ret (Err CapacityOverflow), w).
  Proof.
    intros Hc. unfold vec_try_with_capacity_and_marker.
    destruct (N.eqb_spec c 0); [lia|]. destruct (N.eqb_spec t_size 0); [lia|]. simpl.
    unfold alloc_array_uninit, layout_array. fold limit.
    destruct (N.leb_spec (c * t_size) limit); [lia|]. done.
  Qed.

  Lemma vrun_Ret op ops (st : vec * W) a st1 outs st2 :
    vexec op st = (Ret a, st1) -> vrun ops st1 = (outs, st2) ->
    vrun (op :: ops) st = (Ret a :: outs, st2).
  Proof. intros H1 H2. simpl. by rewrite H1, H2. Qed.

  (** Pushing within the capacity. *)
  Lemma push_many_quiet ys : forall w v xs,
    rep w v xs -> llen xs + llen ys <= vcap v ->
    exists v' w', vrun (OPush <$> ys) (v, w) = (replicate (length ys) (Ret RUnit), (v', w')) /\
      rep w' v' (xs ++ ys) /\ events w' = events w /\ ncalls w' = ncalls w /\ vcap v' = vcap v.
  Proof.
    induction ys as [|y ys IH]; intros w v xs Hr Hc.
    - exists v, w. rewrite app_nil_r. done.
    - simpl in Hc. destruct (push_within Hz w v xs y Hr) as (v1&w1&He&Hr1&Hk&Hc1&Hev&Hn&_); [lia|].
      destruct (IH w1 v1 (xs ++ [y]) Hr1) as (v2&w2&He2&Hr2&Hev2&Hn2&Hc2).
      { rewrite app_length. simpl. lia. }
      exists v2, w2. rewrite fmap_cons, (vrun_Ret (OPush y) (OPush <$> ys) (v, w) RUnit (v1, w1) _ _) by
        (try exact He2; simpl; by erewrite bind_Ret by exact He).
      rewrite <-app_assoc in Hr2. split_and!; try done; congruence.
  Qed.

  (** Pushing onto a full vector with a willing allocator: one allocator call, one more slot. *)
  Lemma push_full w v xs x :
    rep w v xs -> vcap v = llen xs -> fits (llen xs + 1) -> (forall n sz, e_aok n sz = true) ->
    exists v' w', vec_push x (v, w) = (Ret tt, (v', w')) /\ rep w' v' (xs ++ [x]) /\
      vcap v' = llen xs + 1 /\ ncalls w' = S (ncalls w).
  Proof.
    intros Hr Hc Hf Ha. pose proof (fits_bound Hz _ Hf).
    assert (exists v1 w1, vec_reserve_exact 1 (v, w) = (Ret tt, (v1, w1)) /\ rep w1 v1 xs /\
              vcap v1 = llen xs + 1 /\ ncalls w1 = S (ncalls w)) as (v1&w1&He&Hr1&Hc1&Hn1).
    { destruct (grow_exact_rep Hz w v xs (llen xs + 1) Hr) as (r&v1&w1&Hg&Hk&Hr1&Hn&Hcase);
        [lia|done|].
      destruct Hcase as [(->&Hc1&_)|(_&_&Hx)]; [|by rewrite Ha in Hx].
      exists v1, w1. split_and!; try done.
      unfold vec_reserve_exact, vec_try_reserve_exact. rewrite bind_assoc, bind_get_fst, (proj1 Hr).
      rewrite bind_assoc, guarded_add_ok by (unfold isize_max, usize_max in *; lia).
      destruct (N.ltb_spec (vcap v) (llen xs + 1)); [|lia]. erewrite bind_Ret by exact Hg. done. }
    destruct (push_within Hz w1 v1 xs x Hr1) as (v2&w2&He2&Hr2&Hk2&Hc2&_&Hn2&_); [lia|].
    exists v2, w2. split_and!; [|done|lia|lia].
    rewrite <-He2.
    assert (vec_reserve_exact 1 (v1, w1) = (Ret tt, (v1, w1))) as He3.
    { unfold vec_reserve_exact, vec_try_reserve_exact. rewrite bind_assoc, bind_get_fst, (proj1 Hr1).
      rewrite bind_assoc, guarded_add_ok by (unfold isize_max, usize_max in *; lia).
      destruct (N.ltb_spec (vcap v1) (llen xs + 1)); [lia|]. done. }
    unfold vec_push.
    by rewrite (bind_Ret _ _ _ _ _ (on_unwind_Ret _ _ _ _ _ He)),
       (bind_Ret _ _ _ _ _ (on_unwind_Ret _ _ _ _ _ He3)).
  Qed.

  Lemma push_many_calls ys : forall w v xs,
    rep w v xs -> vcap v = llen xs -> fits (llen xs + llen ys) -> (forall n sz, e_aok n sz = true) ->
    exists v' w', vrun (OPush <$> ys) (v, w) = (replicate (length ys) (Ret RUnit), (v', w')) /\
      rep w' v' (xs ++ ys) /\ ncalls w' = (ncalls w + length ys)%nat.
  Proof.
    induction ys as [|y ys IH]; intros w v xs Hr Hc Hf Ha.
    - exists v, w. rewrite app_nil_r. simpl. by rewrite Nat.add_0_r.
    - simpl in Hf. destruct (push_full w v xs y Hr) as (v1&w1&He&Hr1&Hc1&Hn); try done.
      { eapply (fits_le Hz); [|exact Hf]. lia. }
      destruct (IH w1 v1 (xs ++ [y]) Hr1) as (v2&w2&He2&Hr2&Hn2); try done.
      { rewrite app_length. simpl. lia. }
      { rewrite app_length. simpl. eapply (fits_le Hz); [|exact Hf]. lia. }
      exists v2, w2. rewrite fmap_cons, (vrun_Ret (OPush y) (OPush <$> ys) (v, w) RUnit (v1, w1) _ _) by
        (try exact He2; simpl; by erewrite bind_Ret by exact He).
      rewrite <-app_assoc in Hr2. split_and!; try done. rewrite Hn2, Hn. simpl. lia.
  Qed.

  (** Exactly when [try_reserve_exact] panics. *)
  Lemma try_reserve_exact_panics w v xs n :
    rep w v xs ->
    (exists p st, vec_try_reserve_exact n (v, w) = (Panic p, st)) <->
    usize_max < llen xs + n \/
    (e_checks = true /\ 0 < vcap v /\ usize_max < (llen xs + n) * t_size).
  Proof.
    intros Hr. pose proof Hr as [Hl [rest Ho]]. pose proof (owns_cap Hz _ _ _ Ho) as Hcap.
    pose proof (rep_cap Hz _ _ _ Hr) as [Hc Hf]. pose proof (fits_bound Hz _ Hf) as Hb.
    unfold vec_try_reserve_exact. rewrite bind_get_fst, Hl. unfold overflow_guarded_add.
    destruct (N.leb_spec (llen xs + n) usize_max) as [Hle|Hgt].
    2: { rewrite bind_throw. split; [intros _; by left|]. intros _. eauto. }
    rewrite bind_ret.
    destruct (N.ltb_spec (vcap v) (llen xs + n)) as [Hlt|Hge].
    2: { split; [intros (p&st&?); done|]. intros [?|(_&_&H)]; [lia|].
         unfold fits, limit in Hf. pose proof t_align_pos. unfold isize_max, usize_max in *. nia. }
    unfold vec_grow_exact. rewrite bind_get_fst.
    rewrite bind_debug_assert by (apply N.ltb_lt; lia).
    destruct (N.eqb_spec (vcap v) 0) as [Hc0|Hc0].
    - split; [|intros [?|(_&?&_)]; lia]. intros (p&st&H). exfalso. revert H.
      unfold vec_try_with_capacity_and_marker.
      destruct (N.eqb_spec (llen xs + n) 0); [lia|]. destruct (N.eqb_spec t_size 0); [lia|]. simpl.
      unfold alloc_array_uninit. destruct (layout_array (llen xs + n)) as [l|] eqn:El.
      2: { unfold on_snd, bind, ret. simpl. done. }
      unfold layout_array in El. destruct (_ <=? _); [|done]. injection El as <-.
      destruct Ho as ((Hcur&Hfr)&_). destruct Hcur as [sc Hsc].
      unfold alloc_layout, alloc_for, on_snd, bind, ret. simpl. rewrite Hsc. unfold ga_alloc. simpl.
      destruct (N.eqb_spec ((llen xs + n) * t_size) 0); [nia|]. by destruct (e_aok _ _).
    - unfold vec_realloc. rewrite bind_get_fst. unfold realloc_array, umul.
      destruct (N.leb_spec ((llen xs + n) * t_size) usize_max) as [Hm|Hm].
      + split; [|intros [?|(_&_&?)]; lia]. intros (p&st&H). exfalso. revert H.
        unfold on_snd, bind, ret. simpl.
        destruct Ho as (_&_&_&Hd). unfold vdata in Hd. destruct (sp_ptr (v_ptr v)) as [|b] eqn:Ep.
        { rewrite Hd in Hcap. simpl in Hcap. lia. }
        destruct Hd as (_&_&Hd). unfold ga_realloc. rewrite Hd. simpl. rewrite decide_True by done.
        repeat match goal with |- context [if ?c then _ else _] => destruct c end; done.
      + destruct e_checks eqn:Echk.
        * split; [intros _; right; split_and!; [done|lia|done]|]. intros _.
          unfold on_snd, bind, throw. simpl. eauto.
        * split; [|intros [?|(?&_)]; [lia|done]]. intros (p&st&H). exfalso. revert H.
          unfold on_snd, bind, ret. simpl. unfold ga_realloc.
          destruct Ho as (_&_&_&Hd). unfold vdata in Hd. destruct (sp_ptr (v_ptr v)) as [|b];
            [rewrite Hd in Hcap; simpl in Hcap; lia|].
          destruct Hd as (_&_&Hd). rewrite Hd. simpl. rewrite decide_True by done.
          repeat match goal with |- context [if ?c then _ else _] => destruct c end; done.
  Qed.

  (** Shrinking an empty vector that owns memory asks the allocator for zero bytes. *)
  Lemma shrink_to_zero w v :
    rep w v [] -> 0 < vcap v -> fst (vec_shrink_to 0 (v, w)) = UB ZeroSizeAlloc.
  Proof.
    intros Hr Hc. pose proof Hr as [Hl [rest Ho]]. change (llen []) with 0 in Hl.
    unfold vec_shrink_to. rewrite bind_get_fst, Hl. change (N.max 0 0) with 0. cbv zeta.
    destruct (N.ltb_spec 0 (vcap v)); [|lia]. unfold vec_shrink. rewrite bind_assoc, bind_get_fst.
    rewrite bind_assoc, bind_debug_assert by (apply N.ltb_lt; lia).
    rewrite bind_assoc, bind_debug_assert by (by rewrite Hl).
    destruct (N.eqb_spec t_size 0); [lia|].
    unfold vec_realloc, realloc_array, umul, on_snd, bind, get_fst. simpl. rewrite N.mul_0_l. simpl.
    pose proof (owns_cap Hz _ _ _ Ho) as Hcap. destruct Ho as (_&_&_&Hd). unfold vdata in Hd.
    unfold ga_realloc, ret. destruct (sp_ptr (v_ptr v)) as [|b]; [rewrite Hd in Hcap; simpl in Hcap; lia|].
    destruct Hd as (_&_&Hd). rewrite Hd. simpl. by rewrite decide_True.
  Qed.
End vec6.
