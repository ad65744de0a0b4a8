(** Properties C92-C96: Arc under the release/acquire rules. *)
From Verif Require Import ArcOrdFacts.

(** *** C92: no data race *)
Theorem C92_race_free_partial : forall (PR : Profile) (T : Type) (x : T) ls w,
  ord_reached x ls w -> happened is_lost (w_arc w) = 0 -> race_free w.
Proof. exact p_C92_race_free_partial. Qed.
Print Assumptions C92_race_free_partial.

(** The two reads are made at the same time; both happen before the destruction and the freeing. *)
Example C92_race_free_ex : forall (PR : Profile), exists w,
  ord_reached 5 o_two w /\ happened is_lost (w_arc w) = 0 /\
  map ac_kind (w_trace w) = [KWrite; KAtomic; KRead; KRead; KAtomic; KAtomic; KWrite; KAtomic; KFree] /\
  match w_trace w !! 3%nat, w_trace w !! 6%nat with
  | Some a3, Some a6 => bool_decide (2%nat ∈ ac_before a3) = false /\ bool_decide (2%nat ∈ ac_before a6) = true
  | _, _ => False end.
Proof. exact x_C92_race_free_ex. Qed.

(** After a refused allocation in [make_mut] the counter is wrong: one handle destroys the value while another reads it. *)
Theorem C92_race_free_refuted : forall (PR : Profile), exists w,
  ord_reached 5 (o_lost ++ [w0 (LBeginS 0 CClone); WStep (LSh 0 0 false) 1; w0 (LSh 0 0 false);
    w0 (LBeginS 1 CRead); w0 (LSh 1 0 false); w0 (LBeginX 0 CDrop); WStep (LEx 0 false) 2; w0 (LEx 0 false)]) w /\
  ~ race_free w.
Proof. exact p_C92_race_free_refuted. Qed.
Print Assumptions C92_race_free_refuted.

(** *** C93: the value and the memory *)
Theorem C93_safe_partial : forall (PR : Profile) (T : Type) (x : T) ls w,
  ord_reached x ls w -> happened is_lost (w_arc w) = 0 ->
  happened is_bad (w_arc w) = 0 /\ happened is_destroy (w_arc w) + happened is_out (w_arc w) <= 1 /\
  happened is_free (w_arc w) <= 1.
Proof. exact p_C93_safe_partial. Qed.
Print Assumptions C93_safe_partial.

Example C93_safe_ex : forall (PR : Profile), exists w,
  ord_reached 5 o_two w /\ happened is_lost (w_arc w) = 0 /\
  a_log (w_arc w) = [ACloneOk; ARead 5; ARead 5; ADestroy; AFree] /\ all_gone (w_arc w).
Proof. exact x_C93_safe_ex. Qed.

Theorem C93_safe_refuted : forall (PR : Profile), exists w,
  ord_reached 5 (o_lost ++ [w0 (LBeginS 0 CRead); w0 (LSh 0 0 true)]) w /\ happened is_bad (w_arc w) = 1.
Proof. exact p_C93_safe_refuted. Qed.
Print Assumptions C93_safe_refuted.

Theorem C93_last_handle_partial : forall (PR : Profile) (T : Type) (x : T) ls w,
  let c := w_arc w in
  ord_reached x ls w -> happened is_lost c = 0 -> all_gone c ->
  happened is_forget c = 0 -> happened is_clone_panic c = 0 ->
  happened is_destroy c + happened is_out c = 1 /\
  (happened is_drop_panic c = 0 -> a_freed c = true <-> happened is_weak_made c = 0) /\
  (a_freed c = true -> happened is_free c = 1).
Proof. exact p_C93_last_handle_partial. Qed.
Print Assumptions C93_last_handle_partial.

Example C93_last_handle_ex : forall (PR : Profile), exists w,
  ord_reached 5 o_two w /\ happened is_lost (w_arc w) = 0 /\ all_gone (w_arc w) /\ happened is_forget (w_arc w) = 0 /\
  happened is_clone_panic (w_arc w) = 0 /\ happened is_weak_made (w_arc w) = 0 /\ happened is_drop_panic (w_arc w) = 0 /\
  a_freed (w_arc w) = true.
Proof. exact x_C93_last_handle_ex. Qed.

(** A [Weak] was made and dropped: the memory is not freed. *)
Theorem C93_last_handle_refuted : forall (PR : Profile), exists w,
  ord_reached 5 [w0 (LBeginS 0 CDowngrade); WStep (LSh 0 0 false) 0; WStep (LSh 0 0 false) 0; w0 LWeakDrop;
    w0 (LBeginX 0 CDrop); WStep (LEx 0 false) 0; w0 (LEx 0 false); WStep (LEx 0 false) 1] w /\
  all_gone (w_arc w) /\ weaks (w_arc w) = 0 /\ happened is_destroy (w_arc w) = 1 /\ happened is_forget (w_arc w) = 0 /\
  a_freed (w_arc w) = false.
Proof. exact p_C93_last_handle_refuted. Qed.
Print Assumptions C93_last_handle_refuted.

(** *** C94: the mutable reference *)
Theorem C94_exclusive : forall (PR : Profile) (T : Type) (x : T) ls w i h,
  ord_reached x ls w -> a_hs (w_arc w) !! i = Some h -> h_ex h = XMut ->
  alone i (w_arc w) /\ h_sh h = [] /\ happened is_forget (w_arc w) = 0 /\ a_data (w_arc w) = Alive /\
  a_freed (w_arc w) = false /\ knows_all i w.
Proof. exact p_C94_exclusive. Qed.
Print Assumptions C94_exclusive.

Example C94_exclusive_ex : forall (PR : Profile), exists w,
  ord_reached 5 (o_back ++ [w0 (LBeginX 0 CGetMut); WStep (LEx 0 false) 0; WStep (LEx 0 false) 2; w0 (LEx 0 false)]) w /\
  a_hs (w_arc w) = [AHandle XMut []; gone].
Proof. exact x_C94_exclusive_ex. Qed.

(** The only handle left may still read the old count: [get_mut] then returns [None]. *)
Example C94_stale_ex : forall (PR : Profile), exists w,
  ord_reached 5 (o_back ++ [w0 (LBeginX 0 CGetMut); WStep (LEx 0 false) 0; WStep (LEx 0 false) 1; w0 (LEx 0 false)]) w /\
  a_hs (w_arc w) = [held; gone] /\ a_strong (w_arc w) = 1 /\ a_weak (w_arc w) = 0 /\ last (a_log (w_arc w)) = Some (AGetMut false).
Proof. exact x_C94_stale_ex. Qed.

(** If the owner knows the latest counts (because the threads were joined, say), [get_mut] succeeds. *)
Theorem C94_get_mut : forall (PR : Profile) (T : Type) (x : T) ls w w' i f1 f2 f3 t0 t1 t2 t3,
  ord_reached x ls w -> happened is_lost (w_arc w) = 0 -> a_hs (w_arc w) !! i = Some held ->
  knows_counts i w ->
  wrun [WStep (LBeginX i CGetMut) t0; WStep (LEx i f1) t1; WStep (LEx i f2) t2; WStep (LEx i f3) t3] w = Some w' ->
  a_strong (w_arc w) = 1 -> a_weak (w_arc w) = 0 ->
  a_hs (w_arc w') !! i = Some (AHandle XMut []) /\ a_log (w_arc w') = a_log (w_arc w) ++ [AGetMut true].
Proof. exact p_C94_get_mut. Qed.
Print Assumptions C94_get_mut.

Example C94_get_mut_ex : forall (PR : Profile), exists w,
  ord_reached 5 (o_back ++ [WCount 0 LStrong 2; WCount 0 LWeak 0]) w /\ happened is_lost (w_arc w) = 0 /\
  a_hs (w_arc w) = [held; gone] /\ knows_counts 0 w /\ a_strong (w_arc w) = 1 /\ a_weak (w_arc w) = 0.
Proof. exact x_C94_get_mut_ex. Qed.

(** *** C95: the runs of [ArcModel] *)
Theorem C95_interleavings : forall (PR : Profile) (T : Type) (x : T) ls c,
  arun ls (arc_init x) = Some c ->
  exists ls' w, wrun ls' (w_init x) = Some w /\ w_arc w = c /\ (length ls' <= 2 * length ls)%nat.
Proof. exact p_C95_interleavings. Qed.
Print Assumptions C95_interleavings.

Example C95_interleavings_ex : forall (PR : Profile), exists c w,
  arun (s_clone 0 ++ [LCounts 1] ++ s_drop_one 1) (arc_init 5) = Some c /\
  wrun [w0 (LBeginS 0 CClone); WStep (LSh 0 0 false) 0; w0 (LSh 0 0 false); WCount 1 LStrong 1; WCount 1 LWeak 0;
        w0 (LBeginX 1 CDrop); WStep (LEx 1 false) 1] (w_init 5) = Some w /\
  w_arc w = c /\ a_log c = [ACloneOk; AStrong 2; AWeakCount 0].
Proof. exact x_C95_interleavings_ex. Qed.

(** Not conversely: there are runs in which a count is read that is not the present one. *)
Example C95_more_ex : forall (PR : Profile), exists w,
  wrun (o_back ++ [WCount 0 LStrong 1]) (w_init 5) = Some w /\
  a_log (w_arc w) = [ACloneOk; AStrong 2] /\ a_hs (w_arc w) = [held; gone] /\ a_strong (w_arc w) = 1.
Proof. exact x_C95_more_ex. Qed.

(** *** C96: without [make_mut] *)
Theorem C96_plain : forall (PR : Profile) (T : Type) (x : T) ls w,
  ord_reached x ls w -> w_plain ls ->
  race_free w /\ happened is_bad (w_arc w) = 0 /\ happened is_destroy (w_arc w) + happened is_out (w_arc w) <= 1 /\
  happened is_free (w_arc w) <= 1.
Proof. exact p_C96_plain. Qed.
Print Assumptions C96_plain.

Theorem C96_released : forall (PR : Profile) (T : Type) (x : T) ls w,
  ord_reached x ls w -> w_plain ls -> w_tidy ls -> all_gone (w_arc w) -> happened is_clone_panic (w_arc w) = 0 ->
  happened is_destroy (w_arc w) + happened is_out (w_arc w) = 1 /\ happened is_free (w_arc w) = 1.
Proof. exact p_C96_released. Qed.
Print Assumptions C96_released.

Example C96_ex : forall (PR : Profile), exists w,
  ord_reached 5 o_two w /\ w_plain o_two /\ w_tidy o_two /\ all_gone (w_arc w) /\ happened is_clone_panic (w_arc w) = 0.
Proof. exact x_C96_ex. Qed.
