(** Proofs of the statements collected in PropertiesDrain.v: [Vec::drain] and [SmallVec::drain] for
    every kind of range. *)
From Verif Require Export SmallFacts.
From Coq Require Import ZifyBool ZifyNat ZifyN.

(** What a range means: the half-open interval [range_start .. range_end] over [n] elements. *)
Definition range_start (lo : bound) : N :=
  match lo with Unbounded => 0 | Included k => k | Excluded k => k + 1 end.
Definition range_end (n : N) (hi : bound) : N :=
  match hi with Unbounded => n | Included k => k + 1 | Excluded k => k end.

Section gen.
  Context {EN : Env} {T : Type} {EL : Elem T} {V : Type} {VX : Vecx T V}.
  Notation W := (world T).

  Lemma drain_bound_lo (st : V * W) {A} (f : N -> M (V * W) A) lo :
    range_start lo <= usize_max ->
    (start <- match lo with Unbounded => ret 0 | Included n => ret n | Excluded n => uadd n 1 end; f start) st
    = f (range_start lo) st.
  Proof.
    intros H. destruct lo; simpl in *; [done| |done]. unfold uadd.
    by destruct (N.leb_spec (n + 1) usize_max) as [_|Hn]; [|clear -H Hn; lia].
  Qed.
  Lemma drain_bound_hi (st : V * W) {A} (f : N -> M (V * W) A) len hi :
    range_end len hi <= usize_max ->
    (e <- match hi with Unbounded => ret len | Included n => uadd n 1 | Excluded n => ret n end; f e) st
    = f (range_end len hi) st.
  Proof.
    intros H. destruct hi; simpl in *; [|done|done]. unfold uadd.
    by destruct (N.leb_spec (n + 1) usize_max) as [_|Hn]; [|clear -H Hn; lia].
  Qed.

  Lemma drain_new_gen (v v' : V) (w : W) lo hi :
    range_start lo <= usize_max -> range_end (vx_len v) hi <= usize_max ->
    vx_set_len (range_start lo) (v, w) = (Ret tt, (v', w)) -> vx_len v' = range_start lo ->
    drain_new lo hi (v, w) =
      (if range_start lo =? range_end (vx_len v) hi
       then Ret (Drain (range_start lo) 0 (range_start lo) (range_start lo) (range_start lo))
       else Panic PIndex, (v', w)).
  Proof.
    intros Ha Hb Hs Hl. unfold drain_new. rewrite (drain_bound_lo _ _ _ Ha).
    unfold vx_get_len. rewrite bind_assoc, bind_get_fst, bind_ret. simpl.
    rewrite (drain_bound_hi _ _ _ _ Hb). erewrite bind_Ret by exact Hs.
    rewrite bind_assoc, bind_get_fst, bind_ret. simpl. rewrite Hl.
    set (a := range_start lo). set (b := range_end (vx_len v) hi).
    destruct (N.eqb_spec a b) as [->|Hn].
    - rewrite N.leb_refl, N.sub_diag. done.
    - destruct (N.leb_spec a b) as [H1|H1], (N.leb_spec b a) as [H2|H2]; simpl; try done.
      exfalso. clear -Hn H1 H2. lia.
  Qed.
  Lemma drain_new_stop (v : V) (w : W) lo hi p :
    range_start lo <= usize_max -> range_end (vx_len v) hi <= usize_max ->
    vx_set_len (range_start lo) (v, w) = (Panic p, (v, w)) ->
    drain_new lo hi (v, w) = (Panic p, (v, w)).
  Proof.
    intros Ha Hb Hs. unfold drain_new. rewrite (drain_bound_lo _ _ _ Ha).
    unfold vx_get_len. rewrite bind_assoc, bind_get_fst, bind_ret. simpl.
    rewrite (drain_bound_hi _ _ _ _ Hb). unfold bind at 1. by rewrite Hs.
  Qed.
  Lemma drain_drop_gen (v v' : V) (w : W) a :
    vx_len v = a -> vx_copy a a 0 (v, w) = (Ret tt, (v, w)) -> vx_set_len a (v, w) = (Ret tt, (v', w)) ->
    drain_drop (Drain a 0 a a a) (v, w) =
      if e_strict then (UB Precond, (v, w)) else (Ret tt, (v', w)).
  Proof.
    intros Hl Hc Hs. unfold drain_drop. simpl. rewrite bind_ret. unfold vx_get_len.
    rewrite bind_assoc, bind_get_fst, bind_ret. simpl. rewrite Hl, N.ltb_irrefl. unfold assume.
    destruct e_strict; [done|]. simpl. rewrite !bind_ret, bind_usub, N.sub_diag by lia.
    erewrite bind_Ret by exact Hc. rewrite bind_usub by lia. by rewrite N.sub_0_r.
  Qed.
End gen.

Section vec.
  Context {EN : Env} {T : Type} {EL : Elem T}.
  Notation W := (world T).
  Lemma vec_set_len_any (v : vec) (w : W) n :
    vec_set_len n (v, w) =
      if e_checks && (vcap v <? n) then (Panic PDebugAssert, (v, w)) else (Ret tt, (Vec (v_ptr v) n, w)).
  Proof.
    unfold vec_set_len. rewrite bind_get_fst. unfold debug_assert. destruct e_checks; [|done]. simpl.
    by destruct (N.leb_spec n (vcap v)) as [H|H], (N.ltb_spec (vcap v) n) as [H'|H'];
      [clear -H H'; lia|..|clear -H H'; lia].
  Qed.
  Lemma read_list_len n : forall (w w' : W) p i ys, read_list p i n w = (Ret ys, w') -> length ys = n.
  Proof.
    induction n as [|n IH]; intros w w' p i ys; simpl; [by intros [= <- _]|].
    unfold bind. destruct (read_at p i w) as [[x| | |] w1]; try done.
    destruct (read_list p (i + 1) n w1) as [[l| | |] w2] eqn:E; try done. intros [= <- _].
    simpl. f_equal. by eapply IH.
  Qed.
  Lemma as_slice_len (v : vec) (w w' : W) ys : vec_as_slice v w = (Ret ys, w') -> llen ys = v_len v.
  Proof. intros H. apply read_list_len in H. rewrite H. apply N2Nat.id. Qed.
End vec.

Section small.
  Context {EN : Env} {T : Type} {EL : Elem T} (Cap : N).
  Notation W := (world T).
  Definition sv_cut (s : svec T) (n : N) : svec T :=
    SVec match sv_store s with
         | Stack k => Stack (StackVec (sk_slots k) n)
         | Heap v => Heap (Vec (v_ptr v) n)
         end (sv_marker s).
  Lemma sv_cut_len s n : sv_len (sv_cut s n) = n.
  Proof. unfold sv_len, sv_cut. simpl. by destruct (sv_store s). Qed.
  Lemma sv_set_len_any (s : svec T) (w : W) n :
    sv_set_len Cap n (s, w) =
      if e_checks && (sv_capacity Cap s <? n) then (Panic PDebugAssert, (s, w)) else (Ret tt, (sv_cut s n, w)).
  Proof.
    destruct s as [[k|v] m]; unfold sv_set_len, sv_capacity, sv_cut; simpl.
    - assert (sk_set_len Cap n (k, w) =
        if e_checks && (Cap <? n) then (Panic PDebugAssert, (k, w)) else (Ret tt, (StackVec (sk_slots k) n, w))) as E.
      { unfold sk_set_len. rewrite bind_get_fst. unfold debug_assert. destruct e_checks; [|done]. simpl.
        by destruct (N.leb_spec n Cap) as [H|H], (N.ltb_spec Cap n) as [H'|H'];
          [clear -H H'; lia|..|clear -H H'; lia]. }
      destruct (e_checks && (Cap <? n)); by apply redirect_stack.
    - pose proof (vec_set_len_any v w n) as E.
      destruct (e_checks && (vcap v <? n)); by apply redirect_heap.
  Qed.
  Lemma sk_read_list_len n : forall k (w : W) i ys st, sk_read_list i n (k, w) = (Ret ys, st) -> length ys = n.
  Proof.
    induction n as [|n IH]; intros k w i ys st; simpl; [by intros [= <- _]|].
    unfold bind. destruct (sk_read i (k, w)) as [[x| | |] [k1 w1]]; try done.
    destruct (sk_read_list (i + 1) n (k1, w1)) as [[l| | |] st2] eqn:E; try done. intros [= <- _].
    simpl. f_equal. by eapply IH.
  Qed.
  Lemma slice_slen (s : svec T) (w w' : W) ys : sv_slice s w = (Ret ys, w') -> llen ys = sv_len s.
  Proof.
    unfold sv_slice, sv_as_slice, redirect. destruct s as [[k|v] m]; unfold sv_len; simpl;
      rewrite bind_get_fst; simpl.
    - unfold on_stack, sk_as_slice. simpl. rewrite bind_get_fst. simpl.
      destruct (sk_read_list 0 (N.to_nat (sk_len k)) (k, w)) as [r [k' w2]] eqn:E. simpl.
      intros [= -> _]. apply sk_read_list_len in E. rewrite E. apply N2Nat.id.
    - unfold on_heap. simpl. rewrite bind_get_fst. unfold on_snd. simpl.
      destruct (vec_as_slice v w) as [r w2] eqn:E. simpl. intros [= -> _]. by eapply as_slice_len.
  Qed.
  Lemma small_copy_0 (s : svec T) (w : W) a : @vx_copy T (svec T) (small_vecx Cap) a a 0 (s, w) = (Ret tt, (s, w)).
  Proof.
    destruct s as [[k|v] m]; simpl.
    - apply redirect_stack. unfold sk_copy. by rewrite orb_true_r.
    - apply redirect_heap. rewrite bind_get_fst. apply on_snd_Ret. apply copy_at_0.
  Qed.
  Context (Hz : 0 < t_size).
  Lemma srep_cap w s xs : srep Cap w s xs -> llen xs <= sv_capacity Cap s.
  Proof.
    intros [_ Hr]. unfold sv_capacity. destruct (sv_store s) as [k|v].
    - by apply skrep_len in Hr as [_ ?].
    - destruct Hr as [_ [rest Ho]]. rewrite (owns_cap Hz _ _ _ Ho), app_length, fmap_length. lia.
  Qed.
  Lemma srep_cut w s xs n : srep Cap w s xs -> n <= llen xs -> srep Cap w (sv_cut s n) (take (N.to_nat n) xs).
  Proof.
    intros [Hw Hr] Hn. split; [done|]. unfold sv_cut. simpl. destruct (sv_store s) as [k|v].
    - destruct Hr as (Hl&Hc&rest&Hs). split; [simpl; rewrite take_length; lia|]. split; [done|].
      exists ((Some <$> drop (N.to_nat n) xs) ++ rest). simpl. rewrite Hs, app_assoc, <-fmap_app, take_drop. done.
    - by apply (rep_take Hz).
  Qed.
  Lemma srep_len w s xs : srep Cap w s xs -> sv_len s = llen xs.
  Proof. intros [_ Hr]. unfold sv_len. destruct (sv_store s); by destruct Hr. Qed.
End small.

(** * C17 *)

(** A range [a..b] of any kind, [a] within the capacity (or without checks): unless [a = b] the call
    panics; in every case the vector now claims [a] elements.  With [a <= len] those after [a] are
    lost, with [a > len] the vector claims memory that holds no element. *)
Lemma p_C17_range_refuted : forall (EN : Env) (T : Type) (EL : Elem T) v (w : world T) xs lo hi a b,
  0 < t_size -> reached v w xs -> a = range_start lo -> b = range_end (llen xs) hi ->
  a <= usize_max -> b <= usize_max -> (a <= vcap v \/ e_checks = false) ->
  exists v', drain_new lo hi (v, w) =
      (if a =? b then Ret (Drain a 0 a a a) else Panic PIndex, (v', w)) /\
    v_len v' = a /\
    (a <= llen xs -> vec_as_slice v' w = (Ret (take (N.to_nat a) xs), w)) /\
    (forall ys w', vec_as_slice v' w = (Ret ys, w') -> llen ys = a) /\
    (e_strict = false -> drain_drop (Drain a 0 a a a) (v', w) = (Ret tt, (v', w))).
Proof.
  intros EN T EL v w xs lo hi a b Hz Hre -> -> Ha Hb Hc. pose proof (reached_rep Hz _ _ _ Hre) as Hr.
  assert (e_checks && (vcap v <? range_start lo) = false) as Hk.
  { destruct Hc as [Hc| ->]; [|done]. apply andb_false_iff. right. by apply N.ltb_ge. }
  assert (vec_set_len (range_start lo) (v, w) = (Ret tt, (Vec (v_ptr v) (range_start lo), w))) as Hs.
  { by rewrite vec_set_len_any, Hk. }
  pose proof Hr as [Hl _]. exists (Vec (v_ptr v) (range_start lo)).
  split; [rewrite <-Hl in *; by apply (drain_new_gen (VX := vec_vecx))|]. split; [done|].
  split; [intros Hle; apply (as_slice_ok Hz); by apply (rep_take Hz)|].
  split; [intros ys w' Hy; by apply as_slice_len in Hy|].
  intros Hst. rewrite (drain_drop_gen (VX := vec_vecx) _ (Vec (v_ptr v) (range_start lo))).
  - by rewrite Hst.
  - done.
  - simpl. rewrite bind_get_fst. apply on_snd_Ret. apply copy_at_0.
  - simpl. rewrite vec_set_len_any. by replace (vcap (Vec (v_ptr v) (range_start lo))) with (vcap v) by done; rewrite Hk.
Qed.
(** Only a range that starts beyond the capacity, in a build with checks, panics and leaves the vector
    as it was. *)
Lemma p_C17_range_partial : forall (EN : Env) (T : Type) (EL : Elem T) v (w : world T) xs lo hi,
  0 < t_size -> reached v w xs -> range_start lo <= usize_max -> range_end (llen xs) hi <= usize_max ->
  vcap v < range_start lo -> e_checks = true ->
  drain_new lo hi (v, w) = (Panic PDebugAssert, (v, w)).
Proof.
  intros EN T EL v w xs lo hi Hz Hre Ha Hb Hc He. pose proof (reached_rep Hz _ _ _ Hre) as [Hl _].
  rewrite <-Hl in Hb. apply (drain_new_stop (VX := vec_vecx)); [done|done|]. simpl.
  rewrite vec_set_len_any, He. by apply N.ltb_lt in Hc as ->.
Qed.
(** Three elements in room for five: [drain(..)], [drain(1..=1)] and [drain(2..1)] panic, [drain(5..5)]
    is accepted and the vector then reads uninitialised memory. *)
Lemma x_C17_range_ex :
  let st := @demo env_debug N num_drop w_start [OReserveExact 5; OPush 1; OPush 2; OPush 3] in
  @reached env_debug N num_drop (fst st) (snd st) [1; 2; 3] /\ @vcap N num_drop (fst st) = 5 /\
  fst (@drain_new env_debug N vec (@vec_vecx env_debug N num_drop) Unbounded Unbounded st) = Panic PIndex /\
  fst (@drain_new env_debug N vec (@vec_vecx env_debug N num_drop) (Included 1) (Included 1) st) = Panic PIndex /\
  fst (@drain_new env_debug N vec (@vec_vecx env_debug N num_drop) (Included 2) (Excluded 1) st) = Panic PIndex /\
  fst (@drain_new env_debug N vec (@vec_vecx env_debug N num_drop) (Included 6) (Excluded 6) st) = Panic PDebugAssert /\
  (let r := @drain_new env_debug N vec (@vec_vecx env_debug N num_drop) (Included 5) (Excluded 5) st in
   fst r = Ret (Drain 5 0 5 5 5) /\ fst (@vec_as_slice N num_drop (fst (snd r)) (snd (snd r))) = UB UninitRead).
Proof. split; [by apply demo_reached; [apply w_start_ok|..]; vm_compute|]. by repeat split; vm_compute. Qed.

(** * C115 *)

(** [SmallVec::drain], inline and on the heap: a range [a..b] of any kind panics unless [a = b], and
    in every case the vector now claims [a] elements. *)
Lemma p_C115_range_refuted : forall (EN : Env) (T : Type) (EL : Elem T) (Cap : N) s (w : world T) xs lo hi a b,
  0 < t_size -> sreached Cap s w xs -> a = range_start lo -> b = range_end (llen xs) hi ->
  a <= usize_max -> b <= usize_max -> (a <= sv_capacity Cap s \/ e_checks = false) ->
  exists s', drain_new (Vecx0 := small_vecx Cap) lo hi (s, w) =
      (if a =? b then Ret (Drain a 0 a a a) else Panic PIndex, (s', w)) /\
    sv_len s' = a /\ is_stack s' = is_stack s /\
    (a <= llen xs -> sv_slice s' w = (Ret (take (N.to_nat a) xs), w)) /\
    (forall ys w', sv_slice s' w = (Ret ys, w') -> llen ys = a) /\
    drain_next (Vecx0 := small_vecx Cap) (Drain a 0 a a a) (s', w) = (Ret (None, Drain a 0 a a a), (s', w)) /\
    (e_strict = true -> drain_drop (Vecx0 := small_vecx Cap) (Drain a 0 a a a) (s', w) = (UB Precond, (s', w))) /\
    (e_strict = false -> drain_drop (Vecx0 := small_vecx Cap) (Drain a 0 a a a) (s', w) = (Ret tt, (s', w))).
Proof.
  intros EN T EL Cap s w xs lo hi a b Hz Hre -> -> Ha Hb Hc.
  destruct (sreached_srep Cap Hz _ _ _ Hre) as [Hr _].
  assert (e_checks && (sv_capacity Cap s <? range_start lo) = false) as Hk.
  { destruct Hc as [Hc| ->]; [|done]. apply andb_false_iff. right. by apply N.ltb_ge. }
  assert (sv_set_len Cap (range_start lo) (s, w) = (Ret tt, (sv_cut s (range_start lo), w))) as Hs.
  { by rewrite sv_set_len_any, Hk. }
  assert (sv_set_len Cap (range_start lo) (sv_cut s (range_start lo), w) =
          (Ret tt, (sv_cut s (range_start lo), w))) as Hs2.
  { rewrite sv_set_len_any. replace (sv_capacity Cap (sv_cut s (range_start lo))) with (sv_capacity Cap s).
    2: { destruct s as [[?|?] ?]; done. } rewrite Hk. by destruct s as [[?|?] ?]. }
  pose proof (srep_len Cap _ _ _ Hr) as Hl. exists (sv_cut s (range_start lo)).
  split. { rewrite <-Hl in *. apply (drain_new_gen (VX := small_vecx Cap)); [done..|]. apply sv_cut_len. }
  split; [apply sv_cut_len|]. split; [by destruct s as [[?|?] ?]|].
  split; [intros Hle; apply (slice_sok Cap Hz); by apply (srep_cut Cap Hz)|].
  split; [intros ys w' Hy; apply slice_slen in Hy; by rewrite sv_cut_len in Hy|].
  split; [done|].
  pose proof (drain_drop_gen (VX := small_vecx Cap) (sv_cut s (range_start lo)) (sv_cut s (range_start lo)) w
    (range_start lo) (sv_cut_len s _) (small_copy_0 Cap _ w _) Hs2) as Hd.
  split; intros Hst; by rewrite Hst in Hd.
Qed.
(** Only a range that starts beyond the capacity, in a build with checks, panics and leaves the vector
    as it was. *)
Lemma p_C115_range_partial : forall (EN : Env) (T : Type) (EL : Elem T) (Cap : N) s (w : world T) xs lo hi,
  0 < t_size -> sreached Cap s w xs -> range_start lo <= usize_max -> range_end (llen xs) hi <= usize_max ->
  sv_capacity Cap s < range_start lo -> e_checks = true ->
  drain_new (Vecx0 := small_vecx Cap) lo hi (s, w) = (Panic PDebugAssert, (s, w)).
Proof.
  intros EN T EL Cap s w xs lo hi Hz Hre Ha Hb Hc He. destruct (sreached_srep Cap Hz _ _ _ Hre) as [Hr _].
  rewrite <-(srep_len Cap _ _ _ Hr) in Hb. apply (drain_new_stop (VX := small_vecx Cap)); [done|done|].
  simpl. rewrite sv_set_len_any, He. by apply N.ltb_lt in Hc as ->.
Qed.
(** The iterator by itself, on a drain over the elements [a .. a + n) of the vector (which [drain_new]
    never makes for [n > 0]): [next] gives them in order. *)
Lemma p_C115_next_partial : forall (EN : Env) (T : Type) (EL : Elem T) (Cap : N) s (w : world T) xs a n st e o x,
  0 < t_size -> sreached Cap s w xs -> 1 <= n -> a + n <= llen xs -> xs !! N.to_nat a = Some x ->
  drain_next (Vecx0 := small_vecx Cap) (Drain a n st e o) (s, w) =
    (Ret (Some x, Drain (a + 1) (n - 1) st e o), (s, w)).
Proof.
  intros EN T EL Cap s w xs a n st e o x Hz Hre Hn Ha Hx.
  destruct (sreached_srep Cap Hz _ _ _ Hre) as [Hr _].
  unfold drain_next. cbn [dr_n dr_base dr_start dr_end dr_orig].
  destruct (N.eqb_spec n 0) as [E|_]; [clear -E Hn; lia|].
  erewrite bind_Ret; [reflexivity|]. simpl. by eapply (read_sok Cap Hz).
Qed.
(** [next_back] gives the last element, and then again: what remains starts at that element. *)
Lemma p_C115_next_back_refuted : forall (EN : Env) (T : Type) (EL : Elem T) (Cap : N) s (w : world T) xs a n st e o x,
  0 < t_size -> sreached Cap s w xs -> 2 <= n -> a + n <= llen xs ->
  xs !! N.to_nat (a + n - 1) = Some x ->
  exists d, drain_next_back (Vecx0 := small_vecx Cap) (Drain a n st e o) (s, w) = (Ret (Some x, d), (s, w)) /\
    dr_n d = n - 1 /\
    (exists d', drain_next (Vecx0 := small_vecx Cap) d (s, w) = (Ret (Some x, d'), (s, w))).
Proof.
  intros EN T EL Cap s w xs a n st e o x Hz Hre Hn Ha Hx.
  destruct (sreached_srep Cap Hz _ _ _ Hre) as [Hr _].
  exists (Drain (a + n - 1) (n - 1) st e o). unfold drain_next_back, drain_next.
  cbn [dr_n dr_base dr_start dr_end dr_orig].
  destruct (N.eqb_spec n 0) as [E|_]; [clear -E Hn; lia|].
  destruct (N.eqb_spec (n - 1) 0) as [E|_]; [clear -E Hn; lia|].
  split; [|split; [done|]].
  - erewrite bind_Ret; [reflexivity|]. simpl. by eapply (read_sok Cap Hz).
  - eexists. erewrite bind_Ret; [reflexivity|]. simpl. by eapply (read_sok Cap Hz).
Qed.
(** Two elements inline with room for four, and the same on the heap: [drain(..)] panics and loses
    them all; [drain(4..4)] is accepted and the vector then reads uninitialised memory. *)
Lemma x_C115_ex :
  let dr lo hi := @drain_new env_debug N (svec N) (@small_vecx env_debug N num_drop 4) lo hi in
  let st := @sdemo env_debug N num_drop 4 w_start [SPush 1; SPush 2] in
  let sh := @sdemo env_debug N num_drop 4 w_start [SPush 1; SPush 2; SMoveToHeap] in
  @sreached env_debug N num_drop 4 (fst st) (snd st) [1; 2] /\ is_stack (fst st) = true /\
  @sreached env_debug N num_drop 4 (fst sh) (snd sh) [1; 2] /\ is_stack (fst sh) = false /\
  fst (dr Unbounded Unbounded st) = Panic PIndex /\ fst (dr Unbounded Unbounded sh) = Panic PIndex /\
  sv_len (fst (snd (dr Unbounded Unbounded st))) = 0 /\
  fst (dr (Included 5) (Excluded 5) st) = Panic PDebugAssert /\
  fst (dr (Included 4) (Excluded 4) st) = Ret (Drain 4 0 4 4 4) /\
  (let r := snd (dr (Included 4) (Excluded 4) st) in
   fst (@sv_slice N num_drop (fst r) (snd r)) = UB UninitRead).
Proof.
  split; [by apply sdemo_reached; [apply w_start_ok|..]; vm_compute|]. split; [by vm_compute|].
  split; [by apply sdemo_reached; [apply w_start_ok|..]; vm_compute|]. by repeat split; vm_compute.
Qed.
