(** What growing does for every requested capacity, also beyond the largest array. *)
From Verif Require Export VecReach.
From Coq Require Import ZifyBool ZifyNat ZifyN.

Section grow.
  Context {EN : Env} {T : Type} {EL : Elem T} (Hz : 0 < t_size).
  Notation W := (world T).
  Implicit Types (w : W) (v : vec) (xs : list T).

  (** The outcome of a call that made, or tried to make, room for [n] elements. *)
  Definition grew w v xs n (r : res (result unit aerr)) v' w' : Prop :=
    (keeps v w v' w' [] /\ rep w' v' xs /\
      ((r = Ret (Ok tt) /\ vcap v' = n) \/
       (v' = v /\
        (r = Ret (Err AllocErr) /\ e_aok (ncalls w) ((n * t_size) mod two64) = false \/
         r = Ret (Err CapacityOverflow) /\ vcap v = 0 /\ limit < n * t_size /\ w' = w \/
         r = Panic PArith /\ 0 < vcap v /\ e_checks = true /\ usize_max < n * t_size /\ w' = w)))) \/
    (0 < vcap v /\ limit < n * t_size /\ (e_checks = false \/ n * t_size <= usize_max) /\
      ((exists u, r = UB u) \/ (r = Ret (Ok tt) /\ vcap v' = n /\ ~ backed w' v'))).

  Lemma small_mod n : n * t_size <= limit -> (n * t_size) mod two64 = n * t_size.
  Proof. intros H. apply N.mod_small. unfold limit, isize_max, two64 in *. lia. Qed.

  Lemma grow_exact_total w v xs n :
    rep w v xs -> vcap v < n ->
    exists r v' w', vec_grow_exact n (v, w) = (r, (v', w')) /\ grew w v xs n r v' w'.
  Proof.
    intros Hr Hc. destruct (N.le_gt_cases (n * t_size) limit) as [Hf|Hbig].
    { destruct (grow_exact_rep Hz w v xs n Hr Hc Hf) as (r&v'&w'&He&Hk&Hr'&_&Hcase).
      exists (Ret r), v', w'. split; [done|]. left. split; [done|]. split; [done|].
      rewrite (small_mod _ Hf). destruct Hcase as [(->&?&_)|(->&->&?)]; [by left|].
      right. split; [done|]. by left. }
    pose proof Hr as [Hl [rest Ho]]. pose proof (owns_cap Hz _ _ _ Ho) as Hcap.
    unfold vec_grow_exact. rewrite bind_get_fst, bind_debug_assert by (by apply N.ltb_lt).
    destruct (N.eqb_spec (vcap v) 0) as [Hc0|Hc0].
    { unfold vec_try_with_capacity_and_marker.
      destruct (N.eqb_spec n 0); [lia|]. destruct (N.eqb_spec t_size 0); [lia|]. simpl orb. cbv iota.
      unfold alloc_array_uninit, layout_array.
      rewrite (proj2 (N.leb_gt _ _)) by exact Hbig.
      exists (Ret (Err CapacityOverflow)), v, w. split; [by destruct v|]. left.
      split; [apply keeps_refl|]. split; [done|]. right. split; [done|]. right. by left. }
    pose proof Ho as (Hw&_&_&Hd). unfold vec_realloc. rewrite bind_get_fst. unfold realloc_array.
    destruct (vdata v) as [|b] eqn:Hv.
    { rewrite Hd in Hcap. simpl in Hcap. lia. }
    destruct Hd as (_&Hbn&Hbl). assert (sp_ptr (v_ptr v) = Blk b) as Hv' by done.
    destruct (N.leb_spec (n * t_size) usize_max) as [Hm|Hm];
      [|destruct e_checks eqn:Echk].
    2: { exists (Panic PArith), v, w. split.
         - unfold on_snd, bind, umul. rewrite (proj2 (N.leb_gt _ _)) by exact Hm. rewrite Echk. by destruct v.
         - left. split; [apply keeps_refl|]. split; [done|]. right. split; [done|]. right. right.
           split_and!; try done. lia. }
    all: assert (exists s, s = (n * t_size) mod two64 /\ s < two64) as (s&Es&Hs)
           by (eexists; split; [done|]; apply N.mod_lt; done).
    all: assert (forall S A (k : N -> M S A) st, bind (umul n t_size) k st = k s st) as Hmul.
    1: { intros S A k st. rewrite bind_umul by done. rewrite Es, N.mod_small; [done|].
         unfold usize_max, two64 in *. lia. }
    2: { intros S A k st. unfold umul, bind. rewrite (proj2 (N.leb_gt _ _)) by exact Hm.
         rewrite Echk. by rewrite Es. }
    all: assert (e_checks = false \/ n * t_size <= usize_max) as Hmode by auto.
    all: unfold on_snd; unfold bind at 1; rewrite Hmul; unfold bind at 1, ga_realloc; simpl fst; simpl snd.
    all: rewrite Hv', Hbl; simpl b_alloc; simpl b_layout; rewrite decide_True by done.
    all: unfold grew; rewrite <-?Es.
    all: destruct (N.eqb_spec s 0) as [Hs0|Hs0].
    1, 3: eexists _, _, _; (split; [reflexivity|]); right; split_and!; try done; [lia|]; left; eauto.
    all: change (l_align (layout_of (v_ptr v))) with t_align.
    all: destruct (N.ltb_spec (isize_max + 1 - t_align) s) as [Hb|Hb].
    1, 3: eexists _, _, _; (split; [reflexivity|]); right; split_and!; try done; [lia|]; left; eauto.
    all: destruct (e_aok (ncalls w) s) eqn:Ha; simpl.
    1, 3: eexists _, _, _; (split; [reflexivity|]); right; split_and!; try done; [lia|]; right;
      split; [done|]; split; [by rewrite (vcap_pos Hz)|];
      intros [H0|(b'&blk&Eb&El&_&Elay&_)]; [rewrite (vcap_pos Hz) in H0; simpl in H0; lia|];
      unfold vdata in Eb; simpl in Eb; injection Eb as <-; simpl in El; rewrite lookup_insert in El;
      injection El as <-; simpl in Elay; rewrite (vcap_pos Hz) in Elay; simpl in Elay;
      injection Elay as Elay; unfold limit in Hbig; lia.
    all: eexists _, _, _; (split; [by destruct v|]); left; split_and!;
      [unfold keeps, vrest; simpl; rewrite app_nil_r; split_and!; try done; lia
      |split; [done|]; exists rest; by eapply (owns_same_heap w)|
       right; split; [done|]; by left].
  Qed.

  (** The same of a reservation for which [c] elements are asked of the allocator if it has to grow. *)
  Definition reserved w v xs n c (r : res (result unit aerr)) v' w' : Prop :=
    (usize_max < llen xs + n /\ r = Panic PCapacity /\ v' = v /\ w' = w) \/
    (llen xs + n <= usize_max /\ llen xs + n <= vcap v /\ r = Ret (Ok tt) /\ v' = v /\ w' = w) \/
    (llen xs + n <= usize_max /\ vcap v < llen xs + n /\ grew w v xs c r v' w').

  Lemma try_reserve_exact_total w v xs n :
    rep w v xs ->
    exists r v' w', vec_try_reserve_exact n (v, w) = (r, (v', w')) /\
      reserved w v xs n (llen xs + n) r v' w'.
  Proof.
    intros Hr. unfold vec_try_reserve_exact, reserved. rewrite bind_get_fst, (proj1 Hr).
    unfold overflow_guarded_add. destruct (N.leb_spec (llen xs + n) usize_max) as [Hle|Hgt].
    2: { eexists _, _, _. split; [reflexivity|]. by left. }
    rewrite bind_ret. destruct (N.ltb_spec (vcap v) (llen xs + n)) as [Hlt|Hge].
    2: { eexists _, _, _. split; [reflexivity|]. right. by left. }
    destruct (grow_exact_total w v xs _ Hr Hlt) as (r&v'&w'&He&Hg).
    exists r, v', w'. split; [done|]. right. by right.
  Qed.

  Lemma try_reserve_total w v xs n :
    rep w v xs ->
    exists r v' w', vec_try_reserve n (v, w) = (r, (v', w')) /\
      reserved w v xs n (amortized (vcap v) (llen xs + n)) r v' w'.
  Proof.
    intros Hr. unfold vec_try_reserve, reserved. rewrite bind_get_fst, (proj1 Hr).
    unfold overflow_guarded_add. destruct (N.leb_spec (llen xs + n) usize_max) as [Hle|Hgt].
    2: { eexists _, _, _. split; [reflexivity|]. by left. }
    rewrite bind_ret. destruct (N.ltb_spec (vcap v) (llen xs + n)) as [Hlt|Hge].
    2: { eexists _, _, _. split; [reflexivity|]. right. by left. }
    destruct (rep_cap Hz _ _ _ Hr) as [Hlc Hfc]. pose proof (fits_bound Hz _ Hfc) as Hb.
    unfold vec_grow_amortized. rewrite bind_get_fst, bind_debug_assert by (clear -Hlt; lia).
    rewrite bind_umul by (clear -Hb; unfold isize_max, usize_max in *; lia).
    fold (amortized (vcap v) (llen xs + n)).
    assert (vcap v < amortized (vcap v) (llen xs + n)) as Hlt' by (clear -Hlt; unfold amortized; lia).
    destruct (grow_exact_total w v xs _ Hr Hlt') as (r&v'&w'&He&Hg).
    exists r, v', w'. split; [done|]. right. by right.
  Qed.
End grow.
