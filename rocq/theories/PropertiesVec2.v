(** Properties C15-C31: compaction, iterators, conversions, markers, logs, panics. *)
From Verif Require Import VecFacts3.

(** Exactly what [retain] does with a predicate that does not panic: when it accepts the first of
    several elements, the second one is neither asked about, nor kept, nor destroyed. *)
Theorem C15_retain_partial : forall (EN : Env) (T : Type) (EL : Elem T) (St : Type)
    (f : St -> T -> St * bool) st v (w : world T) xs,
  0 < t_size -> no_drop_panic -> reached v w xs ->
  exists st' v' w' k d,
    retain (fun st x => let '(st', b) := f st x in (st', Some b)) st (v, w) = (Ret st', (v', w')) /\
    vec_as_slice v' w' = (Ret k, w') /\ drops w' = drops w ++ d /\
    delete_ptr (vdata v') (heap w') = delete_ptr (vdata v) (heap w) /\
    retained f st (match xs with
                   | x :: _ :: zs => if snd (f st x) then x :: zs else xs
                   | _ => xs end) = (st', k, d).
Proof. exact p_C15_retain_partial. Qed.
Print Assumptions C15_retain_partial.

(** It is right when the first element is rejected. *)
Example C15_retain_ex :
  @reached env_debug N num_drop (v123 env_debug num_drop) (w123 env_debug num_drop) [1; 2; 3] /\
  retained (fun (n : N) x => (n + 1, negb (x =? 1))) 0 [1; 2; 3] = (3, [2; 3], [1]) /\
  exists v' w', @retain env_debug N vec (@vec_vecx env_debug N num_drop) N (fun n x => (n + 1, Some (negb (x =? 1)))) 0
    (v123 env_debug num_drop, w123 env_debug num_drop) = (Ret 3, (v', w')) /\
    fst (@vec_as_slice N num_drop v' w') = Ret [2; 3].
Proof. exact x_C15_retain_ex. Qed.

(** The second element gets lost when everything is accepted. *)
Theorem C15_retain_refuted : forall (EN : Env) (T : Type) (EL : Elem T) v (w : world T) x y zs,
  0 < t_size -> no_drop_panic -> reached v w (x :: y :: zs) ->
  exists v' w', retain (fun (_ : unit) _ => (tt, Some true)) tt (v, w) = (Ret tt, (v', w')) /\
    vec_as_slice v' w' = (Ret (x :: zs), w') /\ drops w' = drops w.
Proof. exact p_C15_retain_refuted. Qed.
Print Assumptions C15_retain_refuted.

Example C15_retain_refuted_ex :
  @reached env_debug N num_drop (v123 env_debug num_drop) (w123 env_debug num_drop) [1; 2; 3].
Proof. exact x_C15_retain_refuted_ex. Qed.

(** Exactly what [dedup] and [dedup_by_key] do: the runs of the sequence without its second
    element; that one is neither kept nor destroyed. *)
Theorem C16_dedup_partial : forall (EN : Env) (T : Type) (EL : Elem T) (same : T -> T -> bool)
    v (w : world T) xs,
  0 < t_size -> no_drop_panic -> reached v w xs ->
  exists v' w' k d, dedup same (v, w) = (Ret tt, (v', w')) /\
    vec_as_slice v' w' = (Ret k, w') /\ drops w' = drops w ++ d /\
    delete_ptr (vdata v') (heap w') = delete_ptr (vdata v) (heap w) /\
    runs (fun a b => same b a) (match xs with x :: _ :: zs => x :: zs | _ => xs end) k d.
Proof. exact p_C16_dedup_partial. Qed.
Print Assumptions C16_dedup_partial.

Theorem C16_dedup_by_key_partial : forall (EN : Env) (T : Type) (EL : Elem T) (K : Type)
    (keq : K -> K -> bool) (key : T -> K) v (w : world T) xs,
  0 < t_size -> no_drop_panic -> reached v w xs ->
  exists v' w' k d,
    dedup_by_key keq (fun (_ : unit) x => (tt, x, Some (key x))) tt (v, w) = (Ret tt, (v', w')) /\
    vec_as_slice v' w' = (Ret k, w') /\ drops w' = drops w ++ d /\
    delete_ptr (vdata v') (heap w') = delete_ptr (vdata v) (heap w) /\
    runs (fun a b => keq (key a) (key b)) (match xs with x :: _ :: zs => x :: zs | _ => xs end) k d.
Proof. exact p_C16_dedup_by_key_partial. Qed.
Print Assumptions C16_dedup_by_key_partial.

Example C16_dedup_ex :
  let st := @demo env_debug N num_drop w_start [OPush 1; OPush 1; OPush 1; OPush 2] in
  @reached env_debug N num_drop (fst st) (snd st) [1; 1; 1; 2] /\
  runs N.eqb [1; 1; 2] [1; 2] [1] /\
  exists v' w', @dedup env_debug N vec (@vec_vecx env_debug N num_drop) N.eqb st = (Ret tt, (v', w')) /\
    fst (@vec_as_slice N num_drop v' w') = Ret [1; 2] /\ drops w' = [1].
Proof. exact x_C16_dedup_ex. Qed.

(** A vector without repetitions loses its second element. *)
Theorem C16_dedup_refuted : forall (EN : Env) (T : Type) (EL : Elem T) v (w : world T) x y,
  0 < t_size -> no_drop_panic -> reached v w [x; y] ->
  exists v' w', dedup (fun _ _ => false) (v, w) = (Ret tt, (v', w')) /\
    vec_as_slice v' w' = (Ret [x], w') /\ drops w' = drops w.
Proof. exact p_C16_dedup_refuted. Qed.
Print Assumptions C16_dedup_refuted.

Example C16_dedup_refuted_ex :
  let st := @demo env_debug N num_drop w_start [OPush 1; OPush 2] in
  @reached env_debug N num_drop (fst st) (snd st) [1; 2].
Proof. exact x_C16_dedup_refuted_ex. Qed.

(** Every valid non-empty range panics; the elements from its start on are lost. *)
Theorem C17_drain_refuted : forall (EN : Env) (T : Type) (EL : Elem T) v (w : world T) xs a b,
  0 < t_size -> reached v w xs -> a < b -> b <= llen xs ->
  exists v' w', drain_new (Included a) (Excluded b) (v, w) = (Panic PIndex, (v', w')) /\
    vec_as_slice v' w' = (Ret (take (N.to_nat a) xs), w') /\ drops w' = drops w.
Proof. exact p_C17_drain_refuted. Qed.
Print Assumptions C17_drain_refuted.

(** An empty range yields nothing, but dropping the drain loses the elements after it (or is
    undefined, when library preconditions count). *)
Theorem C17_drain_empty_refuted : forall (EN : Env) (T : Type) (EL : Elem T) v (w : world T) xs a,
  0 < t_size -> reached v w xs -> a <= llen xs ->
  exists v1 d, drain_new (Included a) (Excluded a) (v, w) = (Ret d, (v1, w)) /\
    drain_next d (v1, w) = (Ret (None, d), (v1, w)) /\
    drain_next_back d (v1, w) = (Ret (None, d), (v1, w)) /\
    (e_strict = true -> drain_drop d (v1, w) = (UB Precond, (v1, w))) /\
    (e_strict = false -> exists v2, drain_drop d (v1, w) = (Ret tt, (v2, w)) /\
       vec_as_slice v2 w = (Ret (take (N.to_nat a) xs), w)).
Proof. exact p_C17_drain_empty_refuted. Qed.
Print Assumptions C17_drain_empty_refuted.

(** The iterator by itself, on a drain over the elements [a .. a + n) of a vector (which [drain_new]
    never makes for [n > 0]): [next] is right. *)
Theorem C17_next_partial : forall (EN : Env) (T : Type) (EL : Elem T) v (w : world T) xs a n s e o x,
  0 < t_size -> reached v w xs -> 1 <= n -> a + n <= llen xs ->
  xs !! N.to_nat a = Some x ->
  drain_next (Drain a n s e o) (v, w) = (Ret (Some x, Drain (a + 1) (n - 1) s e o), (v, w)).
Proof. exact p_C17_next_partial. Qed.
Print Assumptions C17_next_partial.

(** [next_back] gives the last element, but what remains starts at that element: it is given out
    again, by [next] or [next_back], and the first elements never are. *)
Theorem C17_next_back_refuted : forall (EN : Env) (T : Type) (EL : Elem T) v (w : world T) xs a n s e o x,
  0 < t_size -> reached v w xs -> 2 <= n -> a + n <= llen xs ->
  xs !! N.to_nat (a + n - 1) = Some x ->
  exists d, drain_next_back (Drain a n s e o) (v, w) = (Ret (Some x, d), (v, w)) /\
    dr_n d = n - 1 /\ (exists d', drain_next d (v, w) = (Ret (Some x, d'), (v, w))) /\
    (n = 2 -> exists d', drain_next_back d (v, w) = (Ret (Some x, d'), (v, w))).
Proof. exact p_C17_next_back_refuted. Qed.
Print Assumptions C17_next_back_refuted.

Example C17_next_ex :
  @reached env_debug N num_drop (v123 env_debug num_drop) (w123 env_debug num_drop) [1; 2; 3].
Proof. exact x_C17_next_ex. Qed.

Example C17_drain_ex :
  @reached env_debug N num_drop (v123 env_debug num_drop) (w123 env_debug num_drop) [1; 2; 3] /\
  fst (@drain_new env_debug N vec (@vec_vecx env_debug N num_drop) (Included 0) (Excluded 2)
        (v123 env_debug num_drop, w123 env_debug num_drop)) = Panic PIndex.
Proof. exact x_C17_drain_ex. Qed.

(** [split_off] always leaves the vector as it was; the vector it returns is empty. *)
Theorem C18_split_off_refuted : forall (EN : Env) (T : Type) (EL : Elem T) v (w : world T) xs at_,
  0 < t_size -> reached v w xs ->
  exists r w', vec_split_off at_ (v, w) = (r, (v, w')) /\ vec_as_slice v w' = (Ret xs, w') /\
    ((exists o, r = Ret o /\ vec_as_slice o w' = (Ret [], w') /\ vcap o = llen xs - at_) \/
     (r = Panic PUnwrap /\ refuses)).
Proof. exact p_C18_split_off_refuted. Qed.
Print Assumptions C18_split_off_refuted.

Example C18_split_off_ex :
  @reached env_debug N num_drop (v123 env_debug num_drop) (w123 env_debug num_drop) [1; 2; 3] /\
  exists o v' w', @vec_split_off env_debug N num_drop 1
      (v123 env_debug num_drop, w123 env_debug num_drop) = (Ret o, (v', w')) /\ v_len o = 0.
Proof. exact x_C18_split_off_ex. Qed.

(** * C19 *)

Theorem C19_into_iter : forall (EN : Env) (T : Type) (EL : Elem T) v (w : world T) xs n,
  0 < t_size -> no_drop_panic -> reached v w xs ->
  exists i i' w',
    it_run (replicate n true) (vec_into_iter v, w) =
      (Ret <$> (Some <$> take n xs) ++ replicate (n - length xs) None, (i, w)) /\
    it_drop (i, w) = (Ret tt, (i', w')) /\
    drops w' = drops w ++ drop n xs /\ heap w' = delete_ptr (vdata v) (heap w).
Proof. exact p_C19_into_iter. Qed.
Print Assumptions C19_into_iter.

Example C19_into_iter_ex :
  @reached env_debug N num_drop (v123 env_debug num_drop) (w123 env_debug num_drop) [1; 2; 3] /\
  fst (@it_run env_debug N num_drop [true; true]
        (vec_into_iter (v123 env_debug num_drop), w123 env_debug num_drop)) = [Ret (Some 1); Ret (Some 2)].
Proof. exact x_C19_into_iter_ex. Qed.

(** Any interleaving that never takes from the back of an exhausted iterator. *)
Theorem C20_double_ended_partial : forall (EN : Env) (T : Type) (EL : Elem T) v (w : world T) xs cs,
  0 < t_size -> no_drop_panic -> reached v w xs -> deque_ok cs xs ->
  exists i i' w',
    it_run cs (vec_into_iter v, w) = (Ret <$> fst (deque cs xs), (i, w)) /\
    it_drop (i, w) = (Ret tt, (i', w')) /\
    drops w' = drops w ++ snd (deque cs xs) /\ heap w' = delete_ptr (vdata v) (heap w).
Proof. exact p_C20_double_ended_partial. Qed.
Print Assumptions C20_double_ended_partial.

Example C20_double_ended_ex :
  @reached env_debug N num_drop (v123 env_debug num_drop) (w123 env_debug num_drop) [1; 2; 3] /\
  deque_ok [false; true; true; false] [1; 2; 3; 4] /\
  deque [false; true; true; false] [1; 2; 3; 4] = ([Some 4; Some 1; Some 2; Some 3], []).
Proof. exact x_C20_double_ended_ex. Qed.

(** When the front has taken everything, the back yields the last element again; dropping the
    iterator then panics in debug builds and is undefined in release builds. *)
Theorem C20_double_ended_refuted : forall (EN : Env) (T : Type) (EL : Elem T) v (w : world T) xs,
  0 < t_size -> reached v w xs -> xs <> [] ->
  exists i i', it_run (replicate (length xs) true) (vec_into_iter v, w) =
      (Ret <$> (Some <$> xs), (i, w)) /\
    it_next_back (i, w) = (Ret (last xs), (i', w)) /\
    (e_checks = true -> exists st, it_drop_body (i', w) = (Panic PArith, st)) /\
    (e_checks = false -> exists st, it_drop (i', w) = (UB Precond, st)).
Proof. exact p_C20_double_ended_refuted. Qed.
Print Assumptions C20_double_ended_refuted.

Example C20_double_ended_refuted_ex :
  fst (@it_run env_debug N num_drop [true; true; true; false]
        (vec_into_iter (v123 env_debug num_drop), w123 env_debug num_drop))
    = [Ret (Some 1); Ret (Some 2); Ret (Some 3); Ret (Some 3)].
Proof. exact x_C20_double_ended_refuted_ex. Qed.

(** * C21 *)

Theorem C21_as_slice_partial : forall (EN : Env) (T : Type) (EL : Elem T) v (w : world T) xs n,
  0 < t_size -> reached v w xs ->
  exists i, snd (it_run (replicate n true) (vec_into_iter v, w)) = (i, w) /\
    it_as_slice i w = (Ret (drop n xs), w).
Proof. exact p_C21_as_slice_partial. Qed.
Print Assumptions C21_as_slice_partial.

(** The reported length ignores what was taken from the front. *)
Theorem C21_size_hint_refuted : forall (EN : Env) (T : Type) (EL : Elem T) v (w : world T) xs n,
  0 < t_size -> reached v w xs ->
  exists i, snd (it_run (replicate n true) (vec_into_iter v, w)) = (i, w) /\
    it_size_hint i = llen xs.
Proof. exact p_C21_size_hint_refuted. Qed.
Print Assumptions C21_size_hint_refuted.

Example C21_size_hint_ex :
  let st := @it_run env_debug N num_drop [true; true]
        (vec_into_iter (v123 env_debug num_drop), w123 env_debug num_drop) in
  it_size_hint (fst (snd st)) = 3 /\ fst (@it_as_slice env_debug N num_drop (fst (snd st)) (snd (snd st))) = Ret [3].
Proof. exact x_C21_size_hint_ex. Qed.

(** [From<&[T]>] panics on every non-empty slice. *)
Theorem C22_from_slice_refuted : forall (EN : Env) (T : Type) (EL : Elem T) (w : world T) l,
  0 < t_size -> wok w -> l <> [] -> exists w', vec_from_slice l w = (Panic PLen, w') /\ heap w' = heap w.
Proof. exact p_C22_from_slice_refuted. Qed.
Print Assumptions C22_from_slice_refuted.

Theorem C22_from_slice_partial : forall (EN : Env) (T : Type) (EL : Elem T) (w : world T),
  0 < t_size -> wok w -> exists v w', vec_from_slice [] w = (Ret v, w') /\
    vec_as_slice v w' = (Ret [], w') /\ heap w' = heap w.
Proof. exact p_C22_from_slice_partial. Qed.
Print Assumptions C22_from_slice_partial.

Example C22_from_slice_ex : wok w_start /\ fst (@vec_from_slice env_debug N num [4] w_start) = Panic PLen.
Proof. exact x_C22_from_slice_ex. Qed.

(** * C23 *)

Theorem C23_from_array : forall (EN : Env) (T : Type) (EL : Elem T) (w : world T) l,
  0 < t_size -> no_drop_panic -> wok w -> llen l * t_size <= isize_max + 1 - t_align ->
  exists r w', vec_from_array l w = (r, w') /\
    ((exists v, r = Ret v /\ vec_as_slice v w' = (Ret l, w') /\ vcap v = llen l /\
        delete_ptr (vdata v) (heap w') = heap w /\ drops w' = drops w) \/
     (r = Panic PUnwrap /\ refuses /\ heap w' = heap w /\ drops w' = drops w ++ l)).
Proof. exact p_C23_from_array. Qed.
Print Assumptions C23_from_array.

Theorem C23_from_iter : forall (EN : Env) (T : Type) (EL : Elem T) (w : world T) it hint,
  0 < t_size -> no_drop_panic -> wok w ->
  N.max (llen it) hint * t_size <= isize_max + 1 - t_align ->
  exists r w', vec_from_iter it hint w = (r, w') /\
    ((exists v ys, r = Ret v /\ it = Some <$> ys /\ vec_as_slice v w' = (Ret ys, w') /\
        delete_ptr (vdata v) (heap w') = heap w /\ drops w' = drops w) \/
     (exists ys it', r = Panic PUser /\ it = (Some <$> ys) ++ None :: it' /\
        heap w' = heap w /\ drops w' = drops w ++ ys) \/
     (r = Panic PUnwrap /\ refuses /\ heap w' = heap w /\ drops w' = drops w) \/
     (exists ys y it', r = Panic PUnwrap /\ refuses /\ it = (Some <$> ys) ++ Some y :: it' /\
        hint < llen it /\ heap w' = heap w /\ drops w' = drops w ++ y :: ys)).
Proof. exact p_C23_from_iter. Qed.
Print Assumptions C23_from_iter.

Theorem C23_clone : forall (EN : Env) (T : Type) (EL : Elem T) v (w : world T) xs,
  0 < t_size -> no_drop_panic -> reached v w xs ->
  exists r w', vec_clone v w = (r, w') /\ vec_as_slice v w' = (Ret xs, w') /\
    ((exists v' ys, r = Ret v' /\ Forall2 (fun x y => t_clone x = Some y) xs ys /\
        vec_as_slice v' w' = (Ret ys, w') /\
        delete_ptr (vdata v') (heap w') = heap w /\ drops w' = drops w) \/
     (exists l1 x l2 ys, r = Panic PUser /\ xs = l1 ++ x :: l2 /\ t_clone x = None /\
        Forall2 (fun x y => t_clone x = Some y) l1 ys /\
        heap w' = heap w /\ drops w' = drops w ++ ys) \/
     (r = Panic PUnwrap /\ refuses /\ heap w' = heap w /\ drops w' = drops w)).
Proof. exact p_C23_clone. Qed.
Print Assumptions C23_clone.

Example C23_ex : wok w_start /\
  @reached env_debug N num_drop (v123 env_debug num_drop) (w123 env_debug num_drop) [1; 2; 3] /\
  (exists v w', @vec_from_iter env_debug N num_drop [Some 1; Some 2] 0 w_start = (Ret v, w') /\ v_len v = 2) /\
  (exists v w', @vec_from_array env_debug N num_drop [7; 8] w_start = (Ret v, w') /\ v_len v = 2) /\
  exists v w', @vec_clone env_debug N num_drop (v123 env_debug num_drop) (w123 env_debug num_drop)
    = (Ret v, w') /\ v_len v = 3.
Proof. exact x_C23_ex. Qed.

(** The slice [leak] returns points to memory that was released, its elements destroyed. *)
Theorem C24_leak_refuted : forall (EN : Env) (T : Type) (EL : Elem T) v (w : world T) xs,
  0 < t_size -> no_drop_panic -> reached v w xs -> xs <> [] ->
  exists p w', vec_leak v w = (Ret (p, llen xs), w') /\ drops w' = drops w ++ xs /\
    forall i, fst (read_at p i w') = UB UseAfterFree.
Proof. exact p_C24_leak_refuted. Qed.
Print Assumptions C24_leak_refuted.

Example C24_leak_ex :
  @reached env_debug N num_drop (v123 env_debug num_drop) (w123 env_debug num_drop) [1; 2; 3] /\
  fst (@vec_leak N num_drop (v123 env_debug num_drop) (w123 env_debug num_drop)) = Ret (Blk 4, 3).
Proof. exact x_C24_leak_ex. Qed.

(** Non-empty vectors. *)
Theorem C25_boxed_slice_partial : forall (EN : Env) (T : Type) (EL : Elem T) v (w : world T) xs,
  0 < t_size -> no_drop_panic -> reached v w xs -> xs <> [] ->
  exists r w', vec_into_boxed_slice v w = (r, w') /\
    ((exists b, r = Ret b /\ sp_len b = llen xs /\ drops w' = drops w /\
        vec_as_slice (vec_from_box b) w' = (Ret xs, w') /\
        exists w2, box_drop b w' = (Ret tt, w2) /\ drops w2 = drops w' ++ xs /\
          heap w2 = delete_ptr (vdata v) (heap w)) \/
     (r = Panic PUnwrap /\ refuses /\ drops w' = drops w ++ xs /\
        heap w' = delete_ptr (vdata v) (heap w))).
Proof. exact p_C25_boxed_slice_partial. Qed.
Print Assumptions C25_boxed_slice_partial.

Example C25_boxed_slice_ex :
  @reached env_debug N num_drop (v123 env_debug num_drop) (w123 env_debug num_drop) [1; 2; 3] /\
  exists b w', @vec_into_boxed_slice env_debug N num_drop (v123 env_debug num_drop) (w123 env_debug num_drop)
    = (Ret b, w') /\ sp_len b = 3.
Proof. exact x_C25_boxed_slice_ex. Qed.

(** The boxed slice of a new vector cannot be dropped. *)
Theorem C25_boxed_slice_refuted : forall (EN : Env) (T : Type) (EL : Elem T) v (w : world T),
  0 < t_size -> reached v w [] -> vcap v = 0 ->
  exists b, vec_into_boxed_slice v w = (Ret b, w) /\ box_drop b w = (UB Dangling_access, w).
Proof. exact p_C25_boxed_slice_refuted. Qed.
Print Assumptions C25_boxed_slice_refuted.

Example C25_boxed_slice_refuted_ex :
  let st := @demo env_debug N num_drop w_start [] in
  @reached env_debug N num_drop (fst st) (snd st) [] /\ @vcap N num_drop (fst st) = 0.
Proof. exact x_C25_boxed_slice_refuted_ex. Qed.

(** With a non-zero starting capacity the marker is kept and used by every later selection of an
    allocator, over all histories without [append] (which creates a second vector). *)
Theorem C26_marker_partial : forall (EN : Env) (T : Type) (EL : Elem T) (w : world T) c m v0 w0 ops outs v w1,
  0 < t_size -> c <> 0 -> vec_try_with_capacity_and_marker c m w = (Ret (Ok v0), w0) ->
  Forall (fun op => match op with OAppend _ => False | _ => True end) ops ->
  vrun ops (v0, w0) = (outs, (v, w1)) ->
  vmarker v = m /\
  exists evs, events w1 = events w ++ evs /\
    Forall (fun e => match e with EvSelect _ s => sel_marker s = m | _ => True end) evs.
Proof. exact p_C26_marker_partial. Qed.
Print Assumptions C26_marker_partial.

Example C26_marker_ex : exists v0 w0 outs v w1,
  @vec_try_with_capacity_and_marker env_debug N num 2 (MType 3) w_start = (Ret (Ok v0), w0) /\
  @vrun env_debug N num [OPush 1; OPush 2; OPush 3; OReserve 9] (v0, w0) = (outs, (v, w1)) /\
  vmarker v = MType 3 /\ length (events w1) = 4%nat.
Proof. exact x_C26_marker_ex. Qed.

(** Without a starting capacity the marker is forgotten. *)
Theorem C26_marker_refuted : forall (EN : Env) (T : Type) (EL : Elem T) (w : world T) m v w',
  vec_with_marker m w = (Ret v, w') \/ vec_try_with_capacity_and_marker 0 m w = (Ret (Ok v), w') ->
  vmarker v = MNone.
Proof. exact p_C26_marker_refuted. Qed.
Print Assumptions C26_marker_refuted.

Example C26_marker_refuted_ex : exists v w',
  @vec_with_marker env_debug N num (MType 3) w_start = (Ret v, w') /\ vmarker v = MNone.
Proof. exact x_C26_marker_refuted_ex. Qed.

(** The allocator log of every history (and of the final drop) is one a monitor accepts: every
    release and resize names a live block, its allocator and its layout; the monitor's live blocks
    are those of the heap.  No restriction on arguments, sizes or destructors. *)
Theorem C27_allocator_log : forall (EN : Env) (T : Type) (EL : Elem T) (w : world T) ops r w0,
  fresh_ids w -> vec_new w = (r, w0) ->
  forall v0 outs v w1 r2 w2, r = Ret v0 -> vrun ops (v0, w0) = (outs, (v, w1)) ->
  vec_drop_val v w1 = (r2, w2) ->
  (exists evs, events w1 = events w ++ evs /\ replay (live_blocks w) evs = Some (live_blocks w1)) /\
  (exists evs, events w2 = events w ++ evs /\ replay (live_blocks w) evs = Some (live_blocks w2)).
Proof. exact p_C27_allocator_log. Qed.
Print Assumptions C27_allocator_log.

(** No call and no final drop releases or uses memory wrongly.  The final drop either returns, and
    everything is given back, or a destructor of an element panicked. *)
Theorem C27_no_bad_release : forall (EN : Env) (T : Type) (EL : Elem T) (w : world T) ops v0 w0 outs v w1,
  0 < t_size -> wok w ->
  N.max (2 * total_demand ops) 8 * t_size <= isize_max + 1 - t_align ->
  vec_new w = (Ret v0, w0) -> vrun ops (v0, w0) = (outs, (v, w1)) ->
  Forall (fun r => forall u, r = UB u -> u = Overlap \/ u = ZeroSizeAlloc) outs /\
  (Forall defined outs -> exists r w2, vec_drop_val v w1 = (r, w2) /\
    (r = Ret tt /\ live_blocks w2 = live_blocks w \/
     r = Panic PDrop /\ exists x, t_needs_drop = true /\ t_drop_panics x = true)).
Proof. exact p_C27_no_bad_release. Qed.
Print Assumptions C27_no_bad_release.

Example C27_ex :
  let ops := [OPush 1; OSetScope 9; OPush 2; OSetScope 7; OReserve 5] in
  let st := @demo env_debug N num_drop w_start ops in
  wok w_start /\ fresh_ids w_start /\ Forall defined (@demo_outs env_debug N num_drop w_start ops) /\
  events (snd (@vec_drop_val N num_drop (fst st) (snd st))) =
    [EvSelect 7 (Selector MNone 2); EvSelect 7 (Selector MNone 2); EvAlloc 7 (Layout 8 8) (Some 1);
     EvRealloc 7 1 (Layout 8 8) 16 (Some 2); EvRealloc 7 2 (Layout 16 8) 56 (Some 3);
     EvDealloc 7 3 (Layout 56 8)].
Proof. exact x_C27_ex. Qed.

(** Truncating and then dropping a vector whose elements' destructors may panic.  (A second panic
    while the first one unwinds ends the process: [Abort].) *)
Theorem C28_truncate_drop_partial : forall (EN : Env) (T : Type) (EL : Elem T) l v (w : world T) n,
  0 < t_size -> reached v w l ->
  let panics x := t_needs_drop && t_drop_panics x in
  let cut := drop (N.to_nat n) l in let kept := take (N.to_nat n) l in
  exists r v' w' r2 w2,
    vec_truncate n (v, w) = (r, (v', w')) /\ vec_drop_val v' w' = (r2, w2) /\
    r = match culprits panics cut with [] => Ret tt | [_] => Panic PDrop | _ => Abort end /\
    drops w' = drops w ++ up_to panics 2 cut /\ vec_as_slice v' w' = (Ret kept, w') /\
    r2 = match culprits panics kept with [] => Ret tt | _ => Panic PDrop end /\
    drops w2 = drops w' ++ up_to panics 1 kept /\
    heap w2 = match culprits panics kept with [] => delete_ptr (vdata v) (heap w) | _ => heap w end /\
    up_to panics 2 cut ++ up_to panics 1 kept ⊆+ l.
Proof. exact p_C28_truncate_drop_partial. Qed.
Print Assumptions C28_truncate_drop_partial.

Theorem C28_drop_partial : forall (EN : Env) (T : Type) (EL : Elem T) l v (w : world T),
  0 < t_size -> reached v w l ->
  let panics x := t_needs_drop && t_drop_panics x in
  exists w', vec_drop_val v w = (match culprits panics l with [] => Ret tt | _ => Panic PDrop end, w') /\
    drops w' = drops w ++ up_to panics 1 l /\
    heap w' = match culprits panics l with [] => delete_ptr (vdata v) (heap w) | _ => heap w end.
Proof. exact p_C28_drop_partial. Qed.
Print Assumptions C28_drop_partial.

Example C28_ex : @reached env_debug N num_bomb (fst bomb_st) (snd bomb_st) bombs /\
  fst (@vec_truncate env_debug N num_bomb 1 bomb_st) = Panic PDrop /\
  drops (snd (snd (@vec_truncate env_debug N num_bomb 1 bomb_st))) = [13; 6; 7].
Proof. exact x_C28_ex. Qed.

(** [clear] interrupted by a panicking destructor, then the vector is dropped: the elements up to
    and including the culprit are destroyed twice. *)
Theorem C28_clear_refuted : forall (EN : Env) (T : Type) (EL : Elem T) l1 x l2 v (w : world T),
  0 < t_size -> reached v w (l1 ++ x :: l2) ->
  Forall (fun y => t_needs_drop && t_drop_panics y = false) l1 ->
  t_needs_drop = true -> t_drop_panics x = true ->
  exists w1 w2, vec_clear (v, w) = (Panic PDrop, (v, w1)) /\
    vec_drop_val v w1 = (Panic PDrop, w2) /\
    drops w2 = drops w ++ (l1 ++ [x]) ++ (l1 ++ [x]).
Proof. exact p_C28_clear_refuted. Qed.
Print Assumptions C28_clear_refuted.

Example C28_clear_ex : @reached env_debug N num_bomb (fst bomb_st) (snd bomb_st) ([5] ++ 13 :: [6; 7]) /\
  Forall (fun y => @t_needs_drop N num_bomb && @t_drop_panics N num_bomb y = false) [5] /\
  @t_drop_panics N num_bomb 13 = true.
Proof. exact x_C28_clear_ex. Qed.

(** Whatever the callback does, including panicking at any call: afterwards the vector can be
    dropped, and no element has been destroyed twice. *)
Theorem C29_retain : forall (EN : Env) (T : Type) (EL : Elem T) (St : Type)
    (f : St -> T -> St * option bool) st v (w : world T) xs,
  0 < t_size -> no_drop_panic -> reached v w xs ->
  exists r v' w' w2 d, retain f st (v, w) = (r, (v', w')) /\ defined r /\
    vec_drop_val v' w' = (Ret tt, w2) /\ heap w2 = delete_ptr (vdata v) (heap w) /\
    drops w2 = drops w ++ d /\ d ⊆+ xs.
Proof. exact p_C29_retain. Qed.
Print Assumptions C29_retain.

Theorem C29_dedup_by_key : forall (EN : Env) (T : Type) (EL : Elem T) (St K : Type)
    (keq : K -> K -> bool) (key : St -> T -> St * option K) st v (w : world T) xs,
  0 < t_size -> no_drop_panic -> reached v w xs ->
  exists r v' w' w2 d,
    dedup_by_key keq (fun st x => (fst (key st x), x, snd (key st x))) st (v, w) = (r, (v', w')) /\
    defined r /\
    vec_drop_val v' w' = (Ret tt, w2) /\ heap w2 = delete_ptr (vdata v) (heap w) /\
    drops w2 = drops w ++ d /\ d ⊆+ xs.
Proof. exact p_C29_dedup_by_key. Qed.
Print Assumptions C29_dedup_by_key.

Theorem C29_dedup_by : forall (EN : Env) (T : Type) (EL : Elem T) (St : Type)
    (f : St -> T -> T -> St * option bool) st v (w : world T) xs,
  0 < t_size -> no_drop_panic -> reached v w xs ->
  exists r v' w' w2 d,
    dedup_by (fun st a b => (fst (f st a b), (a, b), snd (f st a b))) st (v, w) = (r, (v', w')) /\
    defined r /\
    vec_drop_val v' w' = (Ret tt, w2) /\ heap w2 = delete_ptr (vdata v) (heap w) /\
    drops w2 = drops w ++ d /\ d ⊆+ xs.
Proof. exact p_C29_dedup_by. Qed.
Print Assumptions C29_dedup_by.

(** The growing operations with callbacks: the call does what the specification says (also when
    the callback panics), and the later drop destroys exactly what is left. *)
Theorem C29_growing : forall (EN : Env) (T : Type) (EL : Elem T) v (w : world T) xs op,
  0 < t_size -> no_drop_panic -> reached v w xs ->
  match op with
  | OResize _ _ | OResizeWith _ _ | OExtendSlice _ | OExtendIter _ _ => True | _ => False end ->
  N.max (2 * N.max (llen xs) (vcap v) + 2 * demand op) 8 * t_size <= isize_max + 1 - t_align ->
  exists r v' w' w2 ins ys d,
    vexec op (v, w) = (r, (v', w')) /\ vspec refuses t_clone xs op ins r ys d /\
    vec_as_slice v' w' = (Ret ys, w') /\
    vec_drop_val v' w' = (Ret tt, w2) /\ heap w2 = delete_ptr (vdata v) (heap w) /\
    drops w2 = drops w ++ d ++ ys.
Proof. exact p_C29_growing. Qed.
Print Assumptions C29_growing.

Example C29_ex :
  @reached env_debug N num_drop (v123 env_debug num_drop) (w123 env_debug num_drop) [1; 2; 3] /\
  fst (@retain env_debug N vec (@vec_vecx env_debug N num_drop) unit (fun _ x => (tt, if x =? 3 then None else Some true)) tt
    (v123 env_debug num_drop, w123 env_debug num_drop)) = Panic PUser /\
  fst (@vexec env_debug N num_drop (OResizeWith 9 (fun k => if Nat.ltb k 2 then Some 4 else None))
    (v123 env_debug num_drop, w123 env_debug num_drop)) = Panic PUser.
Proof. exact x_C29_ex. Qed.

(** A vector of a zero-sized type with a single value follows the list specification (nothing is
    ever refused) and the allocator is never called. *)
Theorem C30_zst_history_partial : forall (EN : Env) (T : Type) (EL : Elem T) (w : world T) ops sc,
  t_size = 0 -> (forall x y : T, x = y) -> no_drop_panic -> cur_scope w = Some sc ->
  Forall (fun op => match op with OAppend _ => False | _ => True end) ops ->
  total_demand ops <= usize_max ->
  exists v0 w0 outs ins v w1 xs ds,
    vec_new w = (Ret v0, w0) /\ vrun ops (v0, w0) = (outs, (v, w1)) /\
    vtrace False t_clone [] ops ins outs xs ds /\ v_len v = llen xs /\
    heap w1 = heap w /\ ncalls w1 = ncalls w /\ drops w1 = drops w ++ ds.
Proof. exact p_C30_zst_history_partial. Qed.
Print Assumptions C30_zst_history_partial.

Example C30_zst_history_ex :
  Forall (fun op : vop unit => match op with OAppend _ => False | _ => True end)
    [OPush tt; OInsert 0 tt; OExtendSlice [tt; tt]; OPop; OShrinkToFit] /\
  @demo_outs env_debug unit zst wz_start [OPush tt; OInsert 0 tt; OExtendSlice [tt; tt]; OPop; OShrinkToFit]
    = [Ret RUnit; Ret RUnit; Ret RUnit; Ret (ROpt (Some tt)); Ret RUnit].
Proof. exact x_C30_zst_history_ex. Qed.

(** Dropping it releases a pointer that was never allocated. *)
Theorem C30_zst_drop_refuted : forall (EN : Env) (T : Type) (EL : Elem T) (w : world T) v w',
  t_size = 0 -> (forall x y : T, x = y) -> no_drop_panic ->
  vec_new w = (Ret v, w') -> fst (vec_drop_val v w') = UB Dangling_access.
Proof. exact p_C30_zst_drop_refuted. Qed.
Print Assumptions C30_zst_drop_refuted.

Example C30_zst_drop_ex :
  let st := @demo env_debug unit zst wz_start [OPush tt] in
  fst (@vec_drop_val unit zst (fst st) (snd st)) = UB Dangling_access.
Proof. exact x_C30_zst_drop_ex. Qed.

(** Two vectors, the second built after the first (and in whatever way). *)
Theorem C31_vec_compare : forall (EN : Env) (T : Type) (EL : Elem T) (w0 : world T) v1 w1 xs v2 w2 ys
    (eqb : T -> T -> bool) (cmp : T -> T -> comparison),
  0 < t_size -> reached_from w0 v1 w1 xs -> reached_from w1 v2 w2 ys ->
  (exists b, vec_eq eqb v1 v2 w2 = (Ret b, w2) /\
     (b = true <-> Forall2 (fun x y => eqb x y = true) xs ys)) /\
  (exists c, vec_cmp cmp v1 v2 w2 = (Ret c, w2) /\ lex cmp xs ys c).
Proof. exact p_C31_vec_compare. Qed.
Print Assumptions C31_vec_compare.

(** The hasher is fed with the length and then with the elements in order. *)
Theorem C31_vec_hash : forall (EN : Env) (T : Type) (EL : Elem T) (H : Type) (hlen : H -> N -> H)
    (hel : H -> T -> H) h v (w : world T) xs,
  0 < t_size -> reached v w xs ->
  vec_hash hlen hel h v w = (Ret (fold_left hel xs (hlen h (llen xs))), w).
Proof. exact p_C31_vec_hash. Qed.
Print Assumptions C31_vec_hash.

Example C31_vec_ex :
  let st1 := @demo env_debug N num_drop w_start [OPush 1; OPush 2] in
  let st2 := @demo env_debug N num_drop (snd st1) [OReserve 10; OPush 1; OPush 3] in
  @reached env_debug N num_drop (fst st1) (snd st1) [1; 2] /\
  fst (@vec_as_slice N num_drop (fst st2) (snd st2)) = Ret [1; 3] /\
  fst (@vec_cmp N num_drop N.compare (fst st1) (fst st2) (snd st2)) = Ret Lt.
Proof. exact x_C31_vec_ex. Qed.
