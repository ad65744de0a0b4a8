(** Properties C06-C14: vector histories and capacity. *)
From Verif Require Import VecFacts2.

(** Every history on a new vector in an arbitrary surrounding world either behaves as the list
    specification says, call by call, or runs into one of the two undefined calls, having behaved
    like a list until then. *)
Theorem C06_vec_is_a_list_partial : forall (EN : Env) (T : Type) (EL : Elem T) (w : world T) ops,
  0 < t_size -> no_drop_panic -> wok w ->
  N.max (2 * total_demand ops) 8 * t_size <= isize_max + 1 - t_align ->
  exists v0 w0 outs v w1,
    vec_new w = (Ret v0, w0) /\ vrun ops (v0, w0) = (outs, (v, w1)) /\
    ((exists ins xs ds, vtrace refuses t_clone [] ops ins outs xs ds /\
        vec_as_slice v w1 = (Ret xs, w1) /\ v_len v = llen xs) \/
     (exists pre op post outs' ins xs ds u, ops = pre ++ op :: post /\ outs = outs' ++ [UB u] /\
        vtrace refuses t_clone [] pre ins outs' xs ds /\
        (op = OSwapRemove (llen xs - 1) /\ 2 <= llen xs /\ u = Overlap /\ e_strict = true \/
         (op = OShrinkToFit \/ op = OShrinkTo 0) /\ xs = [] /\ u = ZeroSizeAlloc))).
Proof. exact p_C06_vec_is_a_list_partial. Qed.
Print Assumptions C06_vec_is_a_list_partial.

Example C06_vec_is_a_list_ex :
  let ops := ops123 ++ [OSwapRemove 0; OShrinkTo 4; OIndex 7; OAsSlice] in
  wok w_start /\ N.max (2 * total_demand ops) 8 * @t_size N num_drop <= isize_max + 1 - 8 /\
  @demo_outs env_debug N num_drop w_start ops
  = [Ret RUnit; Ret RUnit; Ret RUnit; Ret (RVal 9); Ret RUnit; Ret RUnit; Ret (RVal 1);
     Ret RUnit; Panic PIndex; Ret (RList [3; 2])].
Proof. exact x_C06_vec_is_a_list_ex. Qed.

(** [swap_remove] of the last of several elements copies it onto itself. *)
Theorem C06_swap_remove_last_refuted : forall (EN : Env) (T : Type) (EL : Elem T) v (w : world T) xs,
  0 < t_size -> reached v w xs -> 2 <= llen xs -> e_strict = true ->
  fst (vec_swap_remove (llen xs - 1) (v, w)) = UB Overlap.
Proof. exact p_C06_swap_remove_last_refuted. Qed.
Print Assumptions C06_swap_remove_last_refuted.

Example C06_swap_remove_last_ex :
  @reached env_debug N num_drop (v123 env_debug num_drop) (w123 env_debug num_drop) [1; 2; 3] /\
  fst (@vec_swap_remove env_debug N num_drop 2 (v123 env_debug num_drop, w123 env_debug num_drop))
    = UB Overlap.
Proof. exact x_C06_swap_remove_last_ex. Qed.

(** Shrinking an empty vector that has memory asks the allocator for zero bytes. *)
Theorem C06_shrink_empty_refuted : forall (EN : Env) (T : Type) (EL : Elem T) v (w : world T),
  0 < t_size -> reached v w [] -> 0 < vcap v ->
  fst (vec_shrink_to_fit (v, w)) = UB ZeroSizeAlloc /\
  fst (vec_shrink_to 0 (v, w)) = UB ZeroSizeAlloc.
Proof. exact p_C06_shrink_empty_refuted. Qed.
Print Assumptions C06_shrink_empty_refuted.

Example C06_shrink_empty_ex :
  let st := @demo env_release N num_drop w_start [OPush 1; OPop] in
  @reached env_release N num_drop (fst st) (snd st) [] /\ 0 < @vcap N num_drop (fst st).
Proof. exact x_C06_shrink_empty_ex. Qed.

(** Of all values that came in ([ins]: by value, or made by a clone or closure), each was handed
    back once or destroyed once; the memory is as before.  For every history none of whose calls is
    undefined; C06 says which calls are. *)
Theorem C07_vec_ledger_partial : forall (EN : Env) (T : Type) (EL : Elem T) (w : world T) ops v0 w0 outs v w1,
  0 < t_size -> no_drop_panic -> wok w ->
  N.max (2 * total_demand ops) 8 * t_size <= isize_max + 1 - t_align ->
  vec_new w = (Ret v0, w0) -> vrun ops (v0, w0) = (outs, (v, w1)) -> Forall defined outs ->
  exists w2 ins xs ds,
    vec_drop_val v w1 = (Ret tt, w2) /\ vtrace refuses t_clone [] ops ins outs xs ds /\
    heap w2 = heap w /\
    exists destroyed, drops w2 = drops w ++ destroyed /\
      ins ≡ₚ concat (handed_out <$> outs) ++ destroyed.
Proof. exact p_C07_vec_ledger_partial. Qed.
Print Assumptions C07_vec_ledger_partial.

Example C07_vec_ledger_ex :
  let st := @demo env_debug N num_drop w_start ops123 in
  wok w_start /\ Forall defined (@demo_outs env_debug N num_drop w_start ops123) /\
  drops (snd (@vec_drop_val N num_drop (fst st) (snd st))) = [1; 2; 3] /\
  map_to_list (heap (snd (@vec_drop_val N num_drop (fst st) (snd st)))) = map_to_list (heap w_start).
Proof. exact x_C07_vec_ledger_ex. Qed.

(** At every point of a history the rest of the heap is untouched. *)
Theorem C08_vec_frame_partial : forall (EN : Env) (T : Type) (EL : Elem T) (w : world T) ops v0 w0 outs v w1,
  0 < t_size -> wok w ->
  N.max (2 * total_demand ops) 8 * t_size <= isize_max + 1 - t_align ->
  vec_new w = (Ret v0, w0) -> vrun ops (v0, w0) = (outs, (v, w1)) -> Forall defined outs ->
  length outs = length ops /\
  match vdata v with
  | Dangling => heap w1 = heap w
  | Blk b => heap w !! b = None /\ delete b (heap w1) = heap w
  end.
Proof. exact p_C08_vec_frame_partial. Qed.
Print Assumptions C08_vec_frame_partial.

Example C08_vec_frame_ex :
  let st := @demo env_debug N num_drop w_start ops123 in
  Forall defined (@demo_outs env_debug N num_drop w_start ops123) /\
  vdata (fst st) = Blk 4 /\
  map_to_list (delete 4 (heap (snd st))) = map_to_list (heap w_start).
Proof. exact x_C08_vec_frame_ex. Qed.

(** * C09 *)

Theorem C09_reserve_exact : forall (EN : Env) (T : Type) (EL : Elem T) v (w : world T) xs n,
  0 < t_size -> reached v w xs ->
  (llen xs + n) * t_size <= isize_max + 1 - t_align ->
  exists r v' w', vec_reserve_exact n (v, w) = (r, (v', w')) /\
    (r = Ret tt ->
      vec_as_slice v' w' = (Ret xs, w') /\
      vcap v' = (if vcap v <? llen xs + n then llen xs + n else vcap v) /\
      forall ys, llen ys <= n -> exists v'' w'',
        vrun (OPush <$> ys) (v', w') = (replicate (length ys) (Ret RUnit), (v'', w'')) /\
        vec_as_slice v'' w'' = (Ret (xs ++ ys), w'') /\
        events w'' = events w' /\ ncalls w'' = ncalls w') /\
    (r <> Ret tt -> r = Panic PUnwrap /\ e_aok (ncalls w) ((llen xs + n) * t_size) = false).
Proof. exact p_C09_reserve_exact. Qed.
Print Assumptions C09_reserve_exact.

Example C09_reserve_exact_ex :
  @reached env_debug N num (v123 env_debug num) (w123 env_debug num) [1; 2; 3] /\
  @vcap N num (v123 env_debug num) = 6 /\
  exists v' w', @vec_reserve_exact env_debug N num 9 (v123 env_debug num, w123 env_debug num)
    = (Ret tt, (v', w')) /\ @vcap N num v' = 12.
Proof. exact x_C09_reserve_exact_ex. Qed.

Theorem C09_reserve : forall (EN : Env) (T : Type) (EL : Elem T) v (w : world T) xs n,
  0 < t_size -> reached v w xs ->
  let least := if t_size =? 1 then 8 else if t_size <=? 1024 then 4 else 1 in
  let cap := N.max (N.max (llen xs + n) least) (vcap v * 2) in
  cap * t_size <= isize_max + 1 - t_align ->
  exists r v' w', vec_reserve n (v, w) = (r, (v', w')) /\
    (r = Ret tt ->
      vec_as_slice v' w' = (Ret xs, w') /\
      vcap v' = (if vcap v <? llen xs + n then cap else vcap v) /\
      forall ys, llen ys <= n -> exists v'' w'',
        vrun (OPush <$> ys) (v', w') = (replicate (length ys) (Ret RUnit), (v'', w'')) /\
        vec_as_slice v'' w'' = (Ret (xs ++ ys), w'') /\
        events w'' = events w' /\ ncalls w'' = ncalls w') /\
    (r <> Ret tt -> r = Panic PUnwrap /\ e_aok (ncalls w) (cap * t_size) = false).
Proof. exact p_C09_reserve. Qed.
Print Assumptions C09_reserve.

Example C09_reserve_ex :
  @reached env_debug N num (v123 env_debug num) (w123 env_debug num) [1; 2; 3] /\
  exists v' w', @vec_reserve env_debug N num 4 (v123 env_debug num, w123 env_debug num)
    = (Ret tt, (v', w')) /\ @vcap N num v' = 12.
Proof. exact x_C09_reserve_ex. Qed.

Theorem C10_try_reserve_refused : forall (EN : Env) (T : Type) (EL : Elem T) v (w : world T) xs n e v' w',
  0 < t_size -> reached v w xs ->
  vec_try_reserve n (v, w) = (Ret (Err e), (v', w')) \/
  vec_try_reserve_exact n (v, w) = (Ret (Err e), (v', w')) ->
  unchanged v xs w v' w' [] /\ (e = CapacityOverflow -> vcap v = 0 /\ w' = w).
Proof. exact p_C10_try_reserve_refused. Qed.
Print Assumptions C10_try_reserve_refused.

Example C10_try_reserve_refused_ex :
  let EN := env_refusing 4 in let st := @demo EN N num_drop w_start ops123 in
  @reached EN N num_drop (fst st) (snd st) [1; 2; 3] /\
  exists v' w', @vec_try_reserve EN N num_drop 9 st = (Ret (Err AllocErr), (v', w')).
Proof. exact x_C10_try_reserve_refused_ex. Qed.

Theorem C10_growth_refused : forall (EN : Env) (T : Type) (EL : Elem T) v (w : world T) xs op d v' w',
  0 < t_size -> reached v w xs -> growing xs op d ->
  N.max (N.max (llen xs + demand op) 8) (vcap v * 2) * t_size <= isize_max + 1 - t_align ->
  vexec op (v, w) = (Panic PUnwrap, (v', w')) ->
  unchanged v xs w v' w' d.
Proof. exact p_C10_growth_refused. Qed.
Print Assumptions C10_growth_refused.

Example C10_growth_refused_ex :
  let EN := env_refusing 1 in let st := @demo EN N num_drop w_start [OPush 1] in
  @reached EN N num_drop (fst st) (snd st) [1] /\ growing [1] (OInsert 0 5) [5] /\
  exists v' w', @vexec EN N num_drop (OInsert 0 5) st = (Panic PUnwrap, (v', w')) /\ drops w' = [5].
Proof. exact x_C10_growth_refused_ex. Qed.

(** Pushing onto a full vector: every single push calls the allocator. *)
Theorem C11_push_amortised_refuted : forall (EN : Env) (T : Type) (EL : Elem T) (w : world T) ys,
  0 < t_size -> wok w -> llen ys * t_size <= isize_max + 1 - t_align ->
  (forall n sz, e_aok n sz = true) ->
  exists v0 w0 v w1, vec_new w = (Ret v0, w0) /\
    vrun (OPush <$> ys) (v0, w0) = (replicate (length ys) (Ret RUnit), (v, w1)) /\
    vec_as_slice v w1 = (Ret ys, w1) /\ ncalls w1 = (ncalls w + length ys)%nat.
Proof. exact p_C11_push_amortised_refuted. Qed.
Print Assumptions C11_push_amortised_refuted.

Example C11_push_amortised_ex :
  wok w_start /\ (forall n sz, @e_aok env_release n sz = true) /\
  ncalls (snd (@demo env_release N num w_start (OPush <$> [1; 2; 3; 4; 5]))) = 5%nat.
Proof. exact x_C11_push_amortised_ex. Qed.

(** Exactly when the fallible reservations panic. *)
Theorem C12_try_reserve_exact_panics_refuted :
  forall (EN : Env) (T : Type) (EL : Elem T) v (w : world T) xs n,
  0 < t_size -> reached v w xs ->
  (exists p st, vec_try_reserve_exact n (v, w) = (Panic p, st)) <->
  usize_max < llen xs + n \/
  (e_checks = true /\ 0 < vcap v /\ usize_max < (llen xs + n) * t_size).
Proof. exact p_C12_try_reserve_exact_panics_refuted. Qed.
Print Assumptions C12_try_reserve_exact_panics_refuted.

Example C12_try_reserve_exact_panics_ex :
  @reached env_release N num_drop (v123 env_release num_drop) (w123 env_release num_drop) [1; 2; 3] /\
  usize_max < llen [1; 2; 3] + usize_max /\
  fst (@vec_try_reserve_exact env_release N num_drop usize_max
         (v123 env_release num_drop, w123 env_release num_drop)) = Panic PCapacity /\
  @reached env_debug N num_drop (v123 env_debug num_drop) (w123 env_debug num_drop) [1; 2; 3] /\
  fst (@vec_try_reserve_exact env_debug N num_drop (2 ^ 61)
         (v123 env_debug num_drop, w123 env_debug num_drop)) = Panic PArith.
Proof. exact x_C12_try_reserve_exact_panics_ex. Qed.

Theorem C12_try_reserve_panics_refuted :
  forall (EN : Env) (T : Type) (EL : Elem T) v (w : world T) xs n,
  0 < t_size -> reached v w xs ->
  let least := if t_size =? 1 then 8 else if t_size <=? 1024 then 4 else 1 in
  (exists p st, vec_try_reserve n (v, w) = (Panic p, st)) <->
  usize_max < llen xs + n \/
  (vcap v < llen xs + n /\ e_checks = true /\ 0 < vcap v /\
   usize_max < N.max (N.max (llen xs + n) least) (vcap v * 2) * t_size).
Proof. exact p_C12_try_reserve_panics_refuted. Qed.
Print Assumptions C12_try_reserve_panics_refuted.

Example C12_try_reserve_panics_ex :
  @reached env_debug N num_drop (v123 env_debug num_drop) (w123 env_debug num_drop) [1; 2; 3] /\
  fst (@vec_try_reserve env_debug N num_drop (2 ^ 62)
         (v123 env_debug num_drop, w123 env_debug num_drop)) = Panic PArith.
Proof. exact x_C12_try_reserve_panics_ex. Qed.

(** When the destructor of the value that could not be inserted panics too, the process ends. *)
Theorem C13_insert_index : forall (EN : Env) (T : Type) (EL : Elem T) v (w : world T) xs i x,
  0 < t_size -> reached v w xs ->
  let failed p := if t_needs_drop && t_drop_panics x then Abort else Panic p in
  (llen xs < i -> exists w', vec_insert i x (v, w) = (failed PAssert, (v, w')) /\
     unchanged v xs w v w' [x]) /\
  (i <= llen xs -> exists r v' w', vec_insert i x (v, w) = (r, (v', w')) /\
     ((r = Ret tt /\ vec_as_slice v' w' = (Ret (take (N.to_nat i) xs ++ x :: drop (N.to_nat i) xs), w'))
      \/ (r = failed PUnwrap /\ refuses /\ unchanged v xs w v' w' [x]))).
Proof. exact p_C13_insert_index. Qed.
Print Assumptions C13_insert_index.

Example C13_insert_index_ex :
  @reached env_debug N num_drop (v123 env_debug num_drop) (w123 env_debug num_drop) [1; 2; 3] /\
  fst (@vec_insert env_debug N num_drop 4 5 (v123 env_debug num_drop, w123 env_debug num_drop))
    = Panic PAssert.
Proof. exact x_C13_insert_index_ex. Qed.

Theorem C13_remove_index : forall (EN : Env) (T : Type) (EL : Elem T) v (w : world T) xs i,
  0 < t_size -> reached v w xs ->
  (llen xs <= i -> vec_remove i (v, w) = (Panic PAssert, (v, w))) /\
  (i < llen xs -> exists x v' w', xs !! N.to_nat i = Some x /\
     vec_remove i (v, w) = (Ret x, (v', w')) /\
     vec_as_slice v' w' = (Ret (take (N.to_nat i) xs ++ drop (S (N.to_nat i)) xs), w')).
Proof. exact p_C13_remove_index. Qed.
Print Assumptions C13_remove_index.

Example C13_remove_index_ex :
  @reached env_debug N num_drop (v123 env_debug num_drop) (w123 env_debug num_drop) [1; 2; 3] /\
  fst (@vec_remove env_debug N num_drop 1 (v123 env_debug num_drop, w123 env_debug num_drop)) = Ret 2.
Proof. exact x_C13_remove_index_ex. Qed.

(** [swap_remove] never panics on a valid index (its result is in C06). *)
Theorem C13_swap_remove_index : forall (EN : Env) (T : Type) (EL : Elem T) v (w : world T) xs i,
  0 < t_size -> reached v w xs ->
  (llen xs <= i -> vec_swap_remove i (v, w) = (Panic PAssert, (v, w))) /\
  (i < llen xs -> forall p, fst (vec_swap_remove i (v, w)) <> Panic p).
Proof. exact p_C13_swap_remove_index. Qed.
Print Assumptions C13_swap_remove_index.

Example C13_swap_remove_index_ex :
  @reached env_debug N num_drop (v123 env_debug num_drop) (w123 env_debug num_drop) [1; 2; 3] /\
  fst (@vec_swap_remove env_debug N num_drop 0 (v123 env_debug num_drop, w123 env_debug num_drop)) = Ret 1.
Proof. exact x_C13_swap_remove_index_ex. Qed.

(** When something remains to be stored. *)
Theorem C14_shrink_partial : forall (EN : Env) (T : Type) (EL : Elem T) v (w : world T) xs m,
  0 < t_size -> reached v w xs -> 0 < N.max (llen xs) m ->
  exists r v' w', vec_shrink_to m (v, w) = (r, (v', w')) /\
    vec_as_slice v' w' = (Ret xs, w') /\ drops w' = drops w /\
    delete_ptr (vdata v') (heap w') = delete_ptr (vdata v) (heap w) /\
    ((r = Ret tt /\ vcap v' = N.min (vcap v) (N.max (llen xs) m))
     \/ (r = Panic PUnwrap /\ v' = v /\ refuses)).
Proof. exact p_C14_shrink_partial. Qed.
Print Assumptions C14_shrink_partial.

Example C14_shrink_ex :
  @reached env_debug N num_drop (v123 env_debug num_drop) (w123 env_debug num_drop) [1; 2; 3] /\
  @vcap N num_drop (v123 env_debug num_drop) = 6 /\
  exists v' w', @vec_shrink_to env_debug N num_drop 4 (v123 env_debug num_drop, w123 env_debug num_drop)
    = (Ret tt, (v', w')) /\ @vcap N num_drop v' = 4.
Proof. exact x_C14_shrink_ex. Qed.

Theorem C14_shrink_to_fit_partial : forall (EN : Env) (T : Type) (EL : Elem T) v (w : world T) xs,
  0 < t_size -> reached v w xs -> xs <> [] ->
  exists r v' w', vec_shrink_to_fit (v, w) = (r, (v', w')) /\
    vec_as_slice v' w' = (Ret xs, w') /\ drops w' = drops w /\
    ((r = Ret tt /\ vcap v' = llen xs) \/ (r = Panic PUnwrap /\ v' = v /\ refuses)).
Proof. exact p_C14_shrink_to_fit_partial. Qed.
Print Assumptions C14_shrink_to_fit_partial.

Example C14_shrink_to_fit_ex :
  @reached env_debug N num_drop (v123 env_debug num_drop) (w123 env_debug num_drop) [1; 2; 3].
Proof. exact x_C14_shrink_to_fit_ex. Qed.

(** An empty vector with capacity cannot be shrunk to nothing. *)
Theorem C14_shrink_empty_refuted :
  exists (v : vec) (w : world N), @reached env_debug N num v w [] /\
    fst (@vec_shrink_to_fit env_debug N num (v, w)) = UB ZeroSizeAlloc.
Proof. exact p_C14_shrink_empty_refuted. Qed.
Print Assumptions C14_shrink_empty_refuted.
