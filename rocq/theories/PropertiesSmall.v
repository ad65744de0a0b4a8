(** Properties C31-C40 and C71: SmallVec. *)
From Verif Require Import SmallFacts.

(** Two small vectors of any inline capacities, inline or on the heap, the second built after the
    first. *)
Theorem C31_small_compare : forall (EN : Env) (T : Type) (EL : Elem T) (C1 C2 : N) (w0 : world T) s1 w1 xs s2 w2 ys
    (eqb : T -> T -> bool) (cmp : T -> T -> comparison),
  0 < t_size -> sreached_from C1 w0 s1 w1 xs -> sreached_from C2 w1 s2 w2 ys ->
  (exists b, sv_eq eqb s1 s2 w2 = (Ret b, w2) /\
     (b = true <-> Forall2 (fun x y => eqb x y = true) xs ys)) /\
  (exists c, sv_cmp cmp s1 s2 w2 = (Ret c, w2) /\ lex cmp xs ys c).
Proof. exact p_C31_small_compare. Qed.
Print Assumptions C31_small_compare.

(** The hasher is fed with the length and then with the elements in order. *)
Theorem C31_small_hash : forall (EN : Env) (T : Type) (EL : Elem T) (Cap : N) (H : Type) (hlen : H -> N -> H)
    (hel : H -> T -> H) h s (w : world T) xs,
  0 < t_size -> sreached Cap s w xs ->
  sv_hash hlen hel h s w = (Ret (fold_left hel xs (hlen h (llen xs))), w).
Proof. exact p_C31_small_hash. Qed.
Print Assumptions C31_small_hash.

Example C31_small_ex :
  let st1 := sin env_debug num_drop in
  let st2 := @sdemo env_debug N num_drop 1 (snd st1) [SReserve 10; SPush 1; SPush 2; SPush 4] in
  @sreached env_debug N num_drop 4 (fst st1) (snd st1) [1; 2; 3] /\ is_stack (fst st1) = true /\
  @sv_slice N num_drop (fst st2) (snd st2) = (Ret [1; 2; 4], snd st2) /\ is_stack (fst st2) = false /\
  fst (@sv_cmp N num_drop N.compare (fst st1) (fst st2) (snd st2)) = Ret Lt.
Proof. exact x_C31_small_ex. Qed.

(** Every history on a new [SmallVec] of any inline capacity either returns, call by call, what the
    list specification says, or runs into one of the undefined calls listed in SpecSmall.v, having
    behaved like a list until then. *)
Theorem C32_small_vec_is_a_list_partial : forall (EN : Env) (T : Type) (EL : Elem T) (Cap : N) (w : world T) ops,
  0 < t_size -> no_drop_panic -> wok w -> Cap * t_size <= isize_max + 1 - t_align ->
  (total_sdemand ops + 8) * t_size <= isize_max + 1 - t_align ->
  exists outs s w1, srun Cap ops (sv_new Cap, w) = (outs, (s, w1)) /\
    ((exists ins xs ds ls, strace refuses t_clone [] ops ins outs xs ds ls /\
        sv_slice s w1 = (Ret xs, w1) /\ sv_len s = llen xs) \/
     (exists pre op post outs' ins xs ds ls b u, ops = pre ++ op :: post /\ outs = outs' ++ [(b, UB u)] /\
        strace refuses t_clone [] pre ins outs' xs ds ls /\
        unsound_small e_strict e_checks Cap min_non_zero_cap b xs op u)).
Proof. exact p_C32_small_vec_is_a_list_partial. Qed.
Print Assumptions C32_small_vec_is_a_list_partial.

Example C32_small_vec_is_a_list_ex :
  let ops := sops_in ++ [SPush 4; SSwapRemove 0; SIndex 7; SPush 5; SPush 6; SAppend [7; 8]; STruncate 3; SAsSlice] in
  wok w_start /\ 4 * @t_size N num_drop <= isize_max + 1 - 8 /\
  (total_sdemand ops + 8) * @t_size N num_drop <= isize_max + 1 - 8 /\
  @sdemo_outs env_debug N num_drop 4 w_start ops
  = [(true, Ret RUnit); (true, Ret RUnit); (true, Ret RUnit); (true, Ret (RVal 9)); (true, Ret RUnit);
     (true, Ret RUnit); (true, Ret (RVal 1)); (true, Panic PUnwrap); (true, Ret RUnit);
     (true, Ret RUnit); (false, Ret RUnit); (false, Ret RUnit); (false, Ret (RList [4; 2; 3]))].
Proof. exact x_C32_small_vec_is_a_list_ex. Qed.

(** Valid calls that are undefined: [remove] from a full inline vector; with library preconditions
    checked, [insert] at the end of an inline vector that stays inline, and [swap_remove] of the last
    inline element. *)
Theorem C32_small_vec_is_a_list_refuted : forall (EN : Env) (T : Type) (EL : Elem T) (Cap : N) s (w : world T) xs,
  0 < t_size -> sreached Cap s w xs -> is_stack s = true ->
  (forall i, llen xs = Cap -> i < llen xs -> fst (sv_remove Cap i (s, w)) = UB OutOfBounds) /\
  (forall x, e_strict = true -> llen xs + N.max (min_non_zero_cap - Cap) 1 <= Cap ->
     fst (sv_insert Cap (llen xs) x (s, w)) = UB Precond) /\
  (e_strict = true -> xs <> [] -> fst (sv_swap_remove Cap (llen xs - 1) (s, w)) = UB Overlap).
Proof. exact p_C32_small_vec_is_a_list_refuted. Qed.
Print Assumptions C32_small_vec_is_a_list_refuted.

Example C32_small_vec_is_a_list_refuted_ex :
  let full := @sdemo env_debug N num_drop 4 w_start (sops_in ++ [SPush 4]) in
  @sreached env_debug N num_drop 4 (fst full) (snd full) [1; 2; 3; 4] /\ is_stack (fst full) = true /\
  fst (@sv_remove env_debug N num_drop 4 0 full) = UB OutOfBounds /\
  fst (@sv_insert env_debug N num_drop 4 3 9 (sin env_debug num_drop)) = UB Precond.
Proof. exact x_C32_small_vec_is_a_list_refuted_ex. Qed.

(** Every history without undefined calls, ended by dropping the vector: the heap is as before, and
    every value that came in was handed back once, destroyed once or lost ([ls]); nothing is lost
    unless [truncate] was called while the elements were inline. *)
Theorem C33_small_ledger_partial : forall (EN : Env) (T : Type) (EL : Elem T) (Cap : N) (w : world T) ops outs s w1,
  0 < t_size -> no_drop_panic -> wok w -> Cap * t_size <= isize_max + 1 - t_align ->
  (total_sdemand ops + 8) * t_size <= isize_max + 1 - t_align ->
  srun Cap ops (sv_new Cap, w) = (outs, (s, w1)) -> Forall (fun o => defined o.2) outs ->
  exists w2 ins xs ds ls destroyed,
    sv_drop_val s w1 = (Ret tt, w2) /\ heap w2 = heap w /\ drops w2 = drops w ++ destroyed /\
    strace refuses t_clone [] ops ins outs xs ds ls /\
    ins ≡ₚ concat (handed_out <$> outs.*2) ++ destroyed ++ ls /\
    ((forall k n b o, ops !! k = Some (STruncate n) -> outs !! k = Some (b, o) -> b = false) -> ls = []).
Proof. exact p_C33_small_ledger_partial. Qed.
Print Assumptions C33_small_ledger_partial.

Example C33_small_ledger_ex :
  let ops := sops_in ++ [SPush 4; SAssign 0 7; SPush 5; SPop; STruncate 2] in
  let st := @sdemo env_debug N num_drop 4 w_start ops in
  wok w_start /\ forallb definedb (snd <$> @sdemo_outs env_debug N num_drop 4 w_start ops) = true /\
  drops (snd (@sv_drop_val N num_drop (fst st) (snd st))) = [1; 3; 4; 7; 2] /\
  map_to_list (heap (snd (@sv_drop_val N num_drop (fst st) (snd st)))) = map_to_list (heap w_start).
Proof. exact x_C33_small_ledger_ex. Qed.

(** [truncate] of an inline vector destroys nothing, and the elements cut off are never destroyed. *)
Theorem C33_small_ledger_refuted : forall (EN : Env) (T : Type) (EL : Elem T) (Cap : N) s (w : world T) xs n,
  0 < t_size -> no_drop_panic -> sreached Cap s w xs -> is_stack s = true -> n < llen xs ->
  exists s' w', sv_truncate Cap n (s, w) = (Ret tt, (s', w)) /\ sv_drop_val s' w = (Ret tt, w') /\
    drops w' = drops w ++ take (N.to_nat n) xs.
Proof. exact p_C33_small_ledger_refuted. Qed.
Print Assumptions C33_small_ledger_refuted.

Example C33_small_ledger_refuted_ex :
  @sreached env_debug N num_drop 4 (fst (sin env_debug num_drop)) (snd (sin env_debug num_drop)) [1; 2; 3] /\
  is_stack (fst (sin env_debug num_drop)) = true /\ 1 < llen [1; 2; 3] /\
  let st := @sdemo env_debug N num_drop 4 w_start (sops_in ++ [STruncate 1]) in
  drops (snd (@sv_drop_val N num_drop (fst st) (snd st))) = [1].
Proof. exact x_C33_small_ledger_refuted_ex. Qed.

(** If the inline capacity is at least one less than the growth step of the element type
    ([MIN_NON_ZERO_CAP]: 8, 4 or 1 by element size), pushing below the capacity stays inline and
    leaves the world (allocator, heap, destructor log) untouched. *)
Theorem C34_stays_inline_partial : forall (EN : Env) (T : Type) (EL : Elem T) (Cap : N) s (w : world T) xs x,
  0 < t_size -> sreached Cap s w xs -> is_stack s = true -> llen xs < Cap ->
  (if t_size =? 1 then 8 else if t_size <=? 1024 then 4 else 1) <= Cap + 1 ->
  exists s', sv_push Cap x (s, w) = (Ret tt, (s', w)) /\ is_stack s' = true /\
    sv_slice s' w = (Ret (xs ++ [x]), w).
Proof. exact p_C34_stays_inline_partial. Qed.
Print Assumptions C34_stays_inline_partial.

Example C34_stays_inline_ex :
  @sreached env_debug N num_drop 4 (fst (sin env_debug num_drop)) (snd (sin env_debug num_drop)) [1; 2; 3] /\
  is_stack (fst (sin env_debug num_drop)) = true /\
  (if @t_size N num_drop =? 1 then 8 else if @t_size N num_drop <=? 1024 then 4 else 1) <= 4 + 1.
Proof. exact x_C34_stays_inline_ex. Qed.

(** Exactly when a push onto an inline vector leaves it inline. *)
Theorem C34_inline_exact_partial : forall (EN : Env) (T : Type) (EL : Elem T) (Cap : N) s (w : world T) xs x s' w',
  0 < t_size -> sreached Cap s w xs -> is_stack s = true ->
  (llen xs + 9) * t_size <= isize_max + 1 - t_align ->
  sv_push Cap x (s, w) = (Ret tt, (s', w')) ->
  is_stack s' = true <->
  llen xs + N.max ((if t_size =? 1 then 8 else if t_size <=? 1024 then 4 else 1) - Cap) 1 <= Cap.
Proof. exact p_C34_inline_exact_partial. Qed.
Print Assumptions C34_inline_exact_partial.

Example C34_inline_exact_ex :
  @sreached env_debug N num_drop 4 (fst (sin env_debug num_drop)) (snd (sin env_debug num_drop)) [1; 2; 3] /\
  fst (@sv_push env_debug N num_drop 4 9 (sin env_debug num_drop)) = Ret tt.
Proof. exact x_C34_inline_exact_ex. Qed.

(** Inline capacity 2, one element: the second push goes to the heap; if the allocator refuses, it
    panics although there is room inline. *)
Theorem C34_stays_inline_refuted :
  let s := fst (@sdemo env_debug N num_drop 2 w_start [SPush 1]) in
  let w := snd (@sdemo env_debug N num_drop 2 w_start [SPush 1]) in
  @sreached env_debug N num_drop 2 s w [1] /\ is_stack s = true /\ llen [1] < 2 /\
  is_stack (fst (snd (@sv_push env_debug N num_drop 2 9 (s, w)))) = false /\
  fst (@sv_push (env_refusing 0) N num_drop 2 9
        (@sdemo (env_refusing 0) N num_drop 2 w_start [SPush 1])) = Panic PUnwrap.
Proof. exact p_C34_stays_inline_refuted. Qed.
Print Assumptions C34_stays_inline_refuted.

(** [try_move_to_stack] on an inline vector, and on a heap vector that does not fit. *)
Theorem C35_move_to_stack_partial : forall (EN : Env) (T : Type) (EL : Elem T) (Cap : N) s (w : world T) xs,
  0 < t_size -> sreached Cap s w xs -> is_stack s = true \/ Cap < llen xs ->
  sv_try_move_to_stack Cap (s, w) = (Ret (is_stack s), (s, w)).
Proof. exact p_C35_move_to_stack_partial. Qed.
Print Assumptions C35_move_to_stack_partial.

Example C35_move_to_stack_ex :
  let st := @sdemo env_debug N num_drop 4 w_start (sops_out ++ [SPush 4; SPush 5]) in
  @sreached env_debug N num_drop 4 (fst st) (snd st) [1; 2; 3; 4; 5] /\ 4 < llen [1; 2; 3; 4; 5].
Proof. exact x_C35_move_to_stack_ex. Qed.

(** A heap vector that fits: its memory is released and then used again. *)
Theorem C35_move_to_stack_refuted : forall (EN : Env) (T : Type) (EL : Elem T) (Cap : N) s (w : world T) xs,
  0 < t_size -> sreached Cap s w xs -> is_stack s = false -> llen xs <= Cap ->
  exists u, fst (sv_try_move_to_stack Cap (s, w)) = UB u.
Proof. exact p_C35_move_to_stack_refuted. Qed.
Print Assumptions C35_move_to_stack_refuted.

Example C35_move_to_stack_refuted_ex :
  @sreached env_debug N num_drop 4 (fst (sout env_debug num_drop)) (snd (sout env_debug num_drop)) [1; 2; 3] /\
  is_stack (fst (sout env_debug num_drop)) = false /\
  fst (@sv_try_move_to_stack N num_drop 4 (sout env_debug num_drop)) = UB UseAfterFree.
Proof. exact x_C35_move_to_stack_refuted_ex. Qed.

(** [resize] works on the heap, up to the inline capacity, and when the reservation moves the
    elements to the heap: it ends with length [n] or in a panic of the clone or (only if the
    allocator may refuse) of the allocation, which leave the elements. *)
Theorem C36_resize_partial : forall (EN : Env) (T : Type) (EL : Elem T) (Cap : N) s (w : world T) xs n x,
  0 < t_size -> no_drop_panic -> sreached Cap s w xs ->
  (llen xs + n + 8) * t_size <= isize_max + 1 - t_align ->
  n <= Cap \/ is_stack s = false \/
    Cap < llen xs + N.max ((if t_size =? 1 then 8 else if t_size <=? 1024 then 4 else 1) - Cap) (n - Cap) ->
  exists r s' w' zs, sv_resize Cap n x (s, w) = (r, (s', w')) /\ sv_slice s' w' = (Ret zs, w') /\
    srest s' w' = srest s w /\
    ((r = Ret tt /\ n <= llen xs /\ zs = take (N.to_nat n) xs /\
        drops w' = drops w ++ (if is_stack s' then [] else drop (N.to_nat n) xs) ++ [x]) \/
     (r = Ret tt /\ llen xs < n /\ drops w' = drops w /\ exists ys, zs = xs ++ ys ++ [x] /\ llen zs = n /\
        Forall (fun y => t_clone x = Some y) ys) \/
     (r = Panic PUser /\ t_clone x = None /\ zs = xs /\ drops w' = drops w ++ [x]) \/
     (r = Panic PUnwrap /\ refuses /\ zs = xs /\ drops w' = drops w ++ [x])).
Proof. exact p_C36_resize_partial. Qed.
Print Assumptions C36_resize_partial.

Example C36_resize_ex :
  @sreached env_debug N num_drop 4 (fst (sin env_debug num_drop)) (snd (sin env_debug num_drop)) [1; 2; 3] /\
  (3 + 6 + 8) * @t_size N num_drop <= isize_max + 1 - 8 /\
  4 < 3 + N.max ((if @t_size N num_drop =? 1 then 8 else if @t_size N num_drop <=? 1024 then 4 else 1) - 4) (6 - 4) /\
  exists s' w', @sv_resize env_debug N num_drop 4 6 9 (sin env_debug num_drop) = (Ret tt, (s', w')) /\
    @sv_slice N num_drop s' w' = (Ret [1; 2; 3; 9; 9; 9], w').
Proof. exact x_C36_resize_ex. Qed.

Theorem C36_resize_with_partial : forall (EN : Env) (T : Type) (EL : Elem T) (Cap : N) s (w : world T) xs n g,
  0 < t_size -> no_drop_panic -> sreached Cap s w xs -> n * t_size <= isize_max + 1 - t_align ->
  n <= Cap \/ is_stack s = false ->
  exists r s' w' zs, sv_resize_with Cap n g (s, w) = (r, (s', w')) /\ sv_slice s' w' = (Ret zs, w') /\
    srest s' w' = srest s w /\
    ((r = Ret tt /\ n <= llen xs /\ zs = take (N.to_nat n) xs /\
        drops w' = drops w ++ (if is_stack s' then [] else drop (N.to_nat n) xs)) \/
     (r = Ret tt /\ llen xs < n /\ drops w' = drops w /\ exists ys, zs = xs ++ ys /\ llen zs = n /\
        forall k, (k < length ys)%nat -> g k = ys !! k) \/
     (r = Panic PUser /\ llen xs < n /\ drops w' = drops w /\ exists ys, zs = xs ++ ys /\ llen zs < n /\
        g (length ys) = None /\ forall k, (k < length ys)%nat -> g k = ys !! k) \/
     (r = Panic PUnwrap /\ refuses /\ zs = xs /\ drops w' = drops w)).
Proof. exact p_C36_resize_with_partial. Qed.
Print Assumptions C36_resize_with_partial.

Example C36_resize_with_ex :
  @sreached env_debug N num_drop 4 (fst (sout env_debug num_drop)) (snd (sout env_debug num_drop)) [1; 2; 3] /\
  6 * @t_size N num_drop <= isize_max + 1 - 8 /\ is_stack (fst (sout env_debug num_drop)) = false /\
  exists s' w', @sv_resize_with env_debug N num_drop 4 6 (fun k => Some (N.of_nat k)) (sout env_debug num_drop) = (Ret tt, (s', w')) /\
    @sv_slice N num_drop s' w' = (Ret [1; 2; 3; 0; 1; 2], w').
Proof. exact x_C36_resize_with_ex. Qed.

(** Inline vectors: [resize] asks for [n - N] more elements, which may fit inline although [n] does
    not; [resize_with] asks for none.  Both then panic, whatever the allocator does. *)
Theorem C36_resize_refuted : forall (EN : Env) (T : Type) (EL : Elem T) (Cap : N) s (w : world T) xs n,
  0 < t_size -> no_drop_panic -> sreached Cap s w xs -> is_stack s = true -> Cap < n -> n <= usize_max ->
  (forall x, llen xs + N.max ((if t_size =? 1 then 8 else if t_size <=? 1024 then 4 else 1) - Cap) (n - Cap) <= Cap ->
     exists p, fst (sv_resize Cap n x (s, w)) = Panic p) /\
  (forall g, exists p, fst (sv_resize_with Cap n g (s, w)) = Panic p).
Proof. exact p_C36_resize_refuted. Qed.
Print Assumptions C36_resize_refuted.

Example C36_resize_refuted_ex :
  let st := @sdemo env_debug N num_drop 10 w_start [] in
  @sreached env_debug N num_drop 10 (fst st) (snd st) [] /\ is_stack (fst st) = true /\
  0 + N.max ((if @t_size N num_drop =? 1 then 8 else if @t_size N num_drop <=? 1024 then 4 else 1) - 10) (12 - 10) <= 10 /\
  fst (@sv_resize env_debug N num_drop 10 12 5 st) = Panic PDebugAssert /\
  fst (@sv_resize env_release N num_drop 10 12 5 st) = Panic PAssert.
Proof. exact x_C36_resize_refuted_ex. Qed.

(** [From<[T; L]>] for arrays longer than the inline capacity (and for empty arrays). *)
Theorem C37_from_array_partial : forall (EN : Env) (T : Type) (EL : Elem T) (Cap : N) (w : world T) l,
  0 < t_size -> no_drop_panic -> wok w -> llen l * t_size <= isize_max + 1 - t_align ->
  Cap < llen l \/ l = [] ->
  exists r w', sv_from_array Cap l w = (r, w') /\
    ((exists s, r = Ret s /\ sv_slice s w' = (Ret l, w') /\ srest s w' = heap w /\ drops w' = drops w) \/
     (r = Panic PUnwrap /\ refuses /\ heap w' = heap w /\ drops w' = drops w ++ l)).
Proof. exact p_C37_from_array_partial. Qed.
Print Assumptions C37_from_array_partial.

Example C37_from_array_ex :
  wok w_start /\ llen [1; 2; 3] * @t_size N num_drop <= isize_max + 1 - 8 /\ 2 < llen [1; 2; 3].
Proof. exact x_C37_from_array_ex. Qed.

(** Arrays that fit inline: the vector is empty, and the elements are never destroyed. *)
Theorem C37_from_array_refuted : forall (EN : Env) (T : Type) (EL : Elem T) (Cap : N) (w : world T) l,
  0 < t_size -> no_drop_panic -> wok w -> 1 <= llen l -> llen l <= Cap ->
  exists s w', sv_from_array Cap l w = (Ret s, w) /\ sv_slice s w = (Ret [], w) /\
    sv_drop_val s w = (Ret tt, w') /\ drops w' = drops w.
Proof. exact p_C37_from_array_refuted. Qed.
Print Assumptions C37_from_array_refuted.

Example C37_from_array_refuted_ex :
  wok w_start /\ 1 <= llen [1; 2; 3] /\ llen [1; 2; 3] <= 4.
Proof. exact x_C37_from_array_refuted_ex. Qed.

(** [split_off] and [split_off_into] before the end: head and tail, in separate memory. *)
Theorem C38_split_off_partial : forall (EN : Env) (T : Type) (EL : Elem T) (Cap Len : N) s (w : world T) xs at_,
  0 < t_size -> sreached Cap s w xs ->
  llen xs * t_size <= isize_max + 1 - t_align -> at_ < llen xs ->
  exists r s' w', sv_split_off_into Cap Len at_ (s, w) = (r, (s', w')) /\ drops w' = drops w /\
    ((exists o, r = Ret o /\ sv_slice s' w' = (Ret (take (N.to_nat at_) xs), w') /\
        sv_slice o w' = (Ret (drop (N.to_nat at_) xs), w') /\
        (no_drop_panic -> forall w2, sv_drop_val o w' = (Ret tt, w2) -> srest s' w2 = srest s w)) \/
     (r = Panic PUnwrap /\ refuses /\ sv_slice s' w' = (Ret xs, w'))).
Proof. exact p_C38_split_off_partial. Qed.
Print Assumptions C38_split_off_partial.

Example C38_split_off_ex :
  @sreached env_debug N num_drop 4 (fst (sin env_debug num_drop)) (snd (sin env_debug num_drop)) [1; 2; 3] /\
  1 < llen [1; 2; 3] /\
  exists o s' w', @sv_split_off_into env_debug N num_drop 4 1 1 (sin env_debug num_drop) = (Ret o, (s', w')) /\
    @sv_slice N num_drop o w' = (Ret [2; 3], w') /\ @sv_slice N num_drop s' w' = (Ret [1], w') /\
    is_stack o = false.
Proof. exact x_C38_split_off_ex. Qed.

(** At the end: a panic instead of an empty tail. *)
Theorem C38_split_off_refuted : forall (EN : Env) (T : Type) (EL : Elem T) (Cap Len : N) s (w : world T) xs,
  0 < t_size -> sreached Cap s w xs ->
  sv_split_off_into Cap Len (llen xs) (s, w) = (Panic PUnwrap, (s, w)).
Proof. exact p_C38_split_off_refuted. Qed.
Print Assumptions C38_split_off_refuted.

Example C38_split_off_refuted_ex :
  @sreached env_debug N num_drop 4 (fst (sin env_debug num_drop)) (snd (sin env_debug num_drop)) [1; 2; 3].
Proof. exact x_C38_split_off_refuted_ex. Qed.

(** [insert] on the heap, or before the end, or with debug assertions past the end, or whenever the
    reservation moves the elements to the heap. *)
Theorem C39_insert_partial : forall (EN : Env) (T : Type) (EL : Elem T) (Cap : N) s (w : world T) xs i x,
  0 < t_size -> sreached Cap s w xs ->
  (llen xs + 9) * t_size <= isize_max + 1 - t_align ->
  is_stack s = false \/ i < llen xs \/ (llen xs < i /\ e_checks = true) \/ (i = llen xs /\ e_strict = false) \/
    Cap < llen xs + N.max ((if t_size =? 1 then 8 else if t_size <=? 1024 then 4 else 1) - Cap) 1 ->
  let failed p := if t_needs_drop && t_drop_panics x then Abort else Panic p in
  exists r s' w' zs ds, sv_insert Cap i x (s, w) = (r, (s', w')) /\ sv_slice s' w' = (Ret zs, w') /\
    srest s' w' = srest s w /\ drops w' = drops w ++ ds /\
    ((r = Ret tt /\ i <= llen xs /\ zs = take (N.to_nat i) xs ++ x :: drop (N.to_nat i) xs /\ ds = []) \/
     ((r = failed PAssert \/ r = failed PDebugAssert) /\ llen xs < i /\ zs = xs /\ ds = [x]) \/
     (r = failed PUnwrap /\ refuses /\ zs = xs /\ ds = [x])).
Proof. exact p_C39_insert_partial. Qed.
Print Assumptions C39_insert_partial.

Example C39_insert_ex :
  @sreached env_debug N num_drop 4 (fst (sin env_debug num_drop)) (snd (sin env_debug num_drop)) [1; 2; 3] /\
  (3 + 9) * @t_size N num_drop <= isize_max + 1 - 8 /\ 1 < llen [1; 2; 3].
Proof. exact x_C39_insert_ex. Qed.

(** An inline vector that stays inline: [insert] past the end in a release build moves memory and
    writes outside the vector, and [insert] at the end violates a library precondition. *)
Theorem C39_insert_refuted : forall (EN : Env) (T : Type) (EL : Elem T) (Cap : N) s (w : world T) xs i x,
  0 < t_size -> sreached Cap s w xs -> is_stack s = true ->
  llen xs + N.max ((if t_size =? 1 then 8 else if t_size <=? 1024 then 4 else 1) - Cap) 1 <= Cap ->
  (e_checks = false /\ llen xs < i) \/ (e_strict = true /\ i = llen xs) ->
  exists u, fst (sv_insert Cap i x (s, w)) = UB u.
Proof. exact p_C39_insert_refuted. Qed.
Print Assumptions C39_insert_refuted.

Example C39_insert_refuted_ex :
  let st := @sdemo env_release N num_drop 4 w_start sops_in in
  @sreached env_release N num_drop 4 (fst st) (snd st) [1; 2; 3] /\ is_stack (fst st) = true /\
  fst (@sv_insert env_release N num_drop 4 5 9 st) = UB OutOfBounds.
Proof. exact x_C39_insert_refuted_ex. Qed.

(** [remove] with room to spare inline, or on the heap. *)
Theorem C39_remove_partial : forall (EN : Env) (T : Type) (EL : Elem T) (Cap : N) s (w : world T) xs i,
  0 < t_size -> sreached Cap s w xs -> is_stack s = false \/ llen xs < Cap ->
  exists r s' w' zs, sv_remove Cap i (s, w) = (r, (s', w')) /\ sv_slice s' w' = (Ret zs, w') /\
    srest s' w' = srest s w /\ drops w' = drops w /\
    match xs !! N.to_nat i with
    | Some x => r = Ret x /\ zs = take (N.to_nat i) xs ++ drop (S (N.to_nat i)) xs
    | None => r = Panic PAssert /\ zs = xs
    end.
Proof. exact p_C39_remove_partial. Qed.
Print Assumptions C39_remove_partial.

Example C39_remove_ex :
  @sreached env_debug N num_drop 4 (fst (sin env_debug num_drop)) (snd (sin env_debug num_drop)) [1; 2; 3] /\
  llen [1; 2; 3] < 4.
Proof. exact x_C39_remove_ex. Qed.

(** [remove] from a full inline vector reads past its storage, in every build. *)
Theorem C39_remove_refuted : forall (EN : Env) (T : Type) (EL : Elem T) (Cap : N) s (w : world T) xs i,
  0 < t_size -> sreached Cap s w xs -> is_stack s = true -> llen xs = Cap -> i < llen xs ->
  fst (sv_remove Cap i (s, w)) = UB OutOfBounds.
Proof. exact p_C39_remove_refuted. Qed.
Print Assumptions C39_remove_refuted.

Example C39_remove_refuted_ex :
  let full := @sdemo env_release N num_drop 4 w_start (sops_in ++ [SPush 4]) in
  @sreached env_release N num_drop 4 (fst full) (snd full) [1; 2; 3; 4] /\ is_stack (fst full) = true.
Proof. exact x_C39_remove_refuted_ex. Qed.

(** [From<&[T]>]: a vector of the clones of the elements, or a panic that leaves nothing behind. *)
Theorem C40_from_slice : forall (EN : Env) (T : Type) (EL : Elem T) (Cap : N) (w : world T) l,
  0 < t_size -> no_drop_panic -> wok w -> Cap * t_size <= isize_max + 1 - t_align ->
  (llen l + 8) * t_size <= isize_max + 1 - t_align ->
  exists r w', sv_from_slice Cap l w = (r, w') /\
    ((exists s ys, r = Ret s /\ Forall2 (fun x y => t_clone x = Some y) l ys /\
        sv_slice s w' = (Ret ys, w') /\ srest s w' = heap w /\ drops w' = drops w) \/
     (exists p, r = Panic p /\ heap w' = heap w /\
        (p = PUser /\ Exists (fun x => t_clone x = None) l \/ p = PUnwrap /\ refuses))).
Proof. exact p_C40_from_slice. Qed.
Print Assumptions C40_from_slice.

Example C40_from_slice_ex :
  wok w_start /\ (llen [1; 2; 3] + 8) * @t_size N num_drop <= isize_max + 1 - 8 /\
  exists s w', @sv_from_slice env_debug N num_drop 2 [1; 2; 3] w_start = (Ret s, w') /\
    @sv_slice N num_drop s w' = (Ret [1; 2; 3], w').
Proof. exact x_C40_from_slice_ex. Qed.

(** [Clone]: a second vector of the clones; the first is unchanged and the two share no memory. *)
Theorem C40_clone : forall (EN : Env) (T : Type) (EL : Elem T) (Cap : N) s (w : world T) xs,
  0 < t_size -> no_drop_panic -> sreached Cap s w xs ->
  (llen xs + 8) * t_size <= isize_max + 1 - t_align ->
  exists r w', sv_clone Cap s w = (r, w') /\
    ((exists o ys, r = Ret o /\ Forall2 (fun x y => t_clone x = Some y) xs ys /\
        sv_slice o w' = (Ret ys, w') /\ sv_slice s w' = (Ret xs, w') /\ srest o w' = heap w /\
        drops w' = drops w) \/
     (exists p, r = Panic p /\ heap w' = heap w /\
        (p = PUser /\ Exists (fun x => t_clone x = None) xs \/ p = PUnwrap /\ refuses))).
Proof. exact p_C40_clone. Qed.
Print Assumptions C40_clone.

Example C40_clone_ex :
  @sreached env_debug N num_drop 4 (fst (sout env_debug num_drop)) (snd (sout env_debug num_drop)) [1; 2; 3] /\
  (3 + 8) * @t_size N num_drop <= isize_max + 1 - 8.
Proof. exact x_C40_clone_ex. Qed.

(** [FromIterator], of an iterator that may panic and whose length hint [h] may be wrong. *)
Theorem C40_from_iter : forall (EN : Env) (T : Type) (EL : Elem T) (Cap : N) (w : world T) it h,
  0 < t_size -> wok w -> Cap * t_size <= isize_max + 1 - t_align ->
  (N.max (llen it) h + 8) * t_size <= isize_max + 1 - t_align ->
  exists r w' ys, sv_from_iter Cap it h w = (r, w') /\
    ((exists s, r = Ret s /\ it = Some <$> ys /\ sv_slice s w' = (Ret ys, w') /\
        srest s w' = heap w /\ drops w' = drops w) \/
     (exists p ds, r = settle (fun x => t_needs_drop && t_drop_panics x) (Panic p) ds /\
        (r = Panic p -> heap w' = heap w /\ drops w' = drops w ++ ds) /\
        (p = PUser /\ ds = ys /\ (exists it', it = (Some <$> ys) ++ None :: it') \/
         p = PUnwrap /\ refuses /\ (exists zs it', ds ≡ₚ zs /\ it = (Some <$> zs) ++ it')))).
Proof. exact p_C40_from_iter. Qed.
Print Assumptions C40_from_iter.

Example C40_from_iter_ex :
  wok w_start /\ (N.max (llen [Some 1; Some 2; Some 3]) 0 + 8) * @t_size N num_drop <= isize_max + 1 - 8 /\
  exists s w', @sv_from_iter env_debug N num_drop 2 [Some 1; Some 2; Some 3] 0 w_start = (Ret s, w') /\
    @sv_slice N num_drop s w' = (Ret [1; 2; 3], w').
Proof. exact x_C40_from_iter_ex. Qed.

(** [Extend]: what the iterator produced before it ended, panicked or the allocator refused is
    appended. *)
Theorem C40_extend : forall (EN : Env) (T : Type) (EL : Elem T) (Cap : N) s (w : world T) xs it h,
  0 < t_size -> sreached Cap s w xs ->
  (llen xs + N.max (llen it) h + 8) * t_size <= isize_max + 1 - t_align ->
  exists r s' w' ys ds, sv_extend Cap it h (s, w) = (r, (s', w')) /\
    sv_slice s' w' = (Ret (xs ++ ys), w') /\ srest s' w' = srest s w /\ drops w' = drops w ++ ds /\
    ((r = Ret tt /\ it = Some <$> ys /\ ds = []) \/
     (r = Panic PUser /\ (exists it', it = (Some <$> ys) ++ None :: it') /\ ds = []) \/
     (r = settle (fun x => t_needs_drop && t_drop_panics x) (Panic PUnwrap) ds /\ refuses /\
      exists it', it = (Some <$> ys) ++ (Some <$> ds) ++ it')).
Proof. exact p_C40_extend. Qed.
Print Assumptions C40_extend.

Example C40_extend_ex :
  @sreached env_debug N num_drop 4 (fst (sin env_debug num_drop)) (snd (sin env_debug num_drop)) [1; 2; 3] /\
  exists s' w', @sv_extend env_debug N num_drop 4 [Some 7; Some 8; None] 1 (sin env_debug num_drop) = (Panic PUser, (s', w')) /\
    @sv_slice N num_drop s' w' = (Ret [1; 2; 3; 7; 8], w').
Proof. exact x_C40_extend_ex. Qed.

(** [From<Vec<T>>] keeps elements, memory and marker. *)
Theorem C40_from_vec : forall (EN : Env) (T : Type) (EL : Elem T) (Cap : N) v (w : world T) xs,
  0 < t_size -> reached v w xs ->
  sv_slice (sv_from_vec v) w = (Ret xs, w) /\ sv_capacity Cap (sv_from_vec v) = vcap v /\
  sv_marker (T:=T) (sv_from_vec v) = vmarker v /\
  sv_drop_val (sv_from_vec v) w = vec_drop_val v w.
Proof. exact p_C40_from_vec. Qed.
Print Assumptions C40_from_vec.

Example C40_from_vec_ex :
  @reached env_debug N num_drop (v123 env_debug num_drop) (w123 env_debug num_drop) [1; 2; 3].
Proof. exact x_C40_from_vec_ex. Qed.

(** [From<Box<[T]>>]: the slice that [Vec::into_boxed_slice] made is adopted as it is. *)
Theorem C40_from_box : forall (EN : Env) (T : Type) (EL : Elem T) (Cap : N) v (w : world T) xs b w',
  0 < t_size -> no_drop_panic -> reached v w xs -> xs <> [] ->
  vec_into_boxed_slice v w = (Ret b, w') ->
  sv_slice (sv_from_box b) w' = (Ret xs, w') /\ sv_capacity Cap (sv_from_box (T:=T) b) = llen xs /\
  exists w2, sv_drop_val (sv_from_box b) w' = (Ret tt, w2) /\ drops w2 = drops w ++ xs /\
    heap w2 = delete_ptr (vdata v) (heap w).
Proof. exact p_C40_from_box. Qed.
Print Assumptions C40_from_box.

Example C40_from_box_ex :
  @reached env_debug N num_drop (v123 env_debug num_drop) (w123 env_debug num_drop) [1; 2; 3] /\
  exists b w', @vec_into_boxed_slice env_debug N num_drop (v123 env_debug num_drop) (w123 env_debug num_drop)
    = (Ret b, w') /\ sp_len b = 3.
Proof. exact x_C40_from_box_ex. Qed.

(** [into_vec], from inline or heap. *)
Theorem C40_into_vec : forall (EN : Env) (T : Type) (EL : Elem T) (Cap : N) s (w : world T) xs,
  0 < t_size -> no_drop_panic -> sreached Cap s w xs ->
  N.max (llen xs) 8 * t_size <= isize_max + 1 - t_align ->
  exists r w', sv_into_vec s w = (r, w') /\
    ((exists v, r = Ret v /\ vec_as_slice v w' = (Ret xs, w') /\ drops w' = drops w /\
        exists w2, vec_drop_val v w' = (Ret tt, w2) /\ heap w2 = srest s w /\ drops w2 = drops w ++ xs) \/
     (r = Panic PUnwrap /\ refuses /\ heap w' = srest s w /\ drops w' = drops w ++ xs)).
Proof. exact p_C40_into_vec. Qed.
Print Assumptions C40_into_vec.

Example C40_into_vec_ex :
  @sreached env_debug N num_drop 4 (fst (sin env_debug num_drop)) (snd (sin env_debug num_drop)) [1; 2; 3] /\
  exists v w', @sv_into_vec env_debug N num_drop (fst (sin env_debug num_drop)) (snd (sin env_debug num_drop)) = (Ret v, w') /\
    @vec_as_slice N num_drop v w' = (Ret [1; 2; 3], w').
Proof. exact x_C40_into_vec_ex. Qed.

(** [into_boxed_slice] of a vector with elements. *)
Theorem C40_into_boxed_slice_partial : forall (EN : Env) (T : Type) (EL : Elem T) (Cap : N) s (w : world T) xs,
  0 < t_size -> no_drop_panic -> sreached Cap s w xs -> xs <> [] ->
  N.max (llen xs) 8 * t_size <= isize_max + 1 - t_align ->
  exists r w', sv_into_boxed_slice s w = (r, w') /\
    ((exists b, r = Ret b /\ vec_as_slice (vec_from_box b) w' = (Ret xs, w') /\ drops w' = drops w /\
        exists w2, box_drop b w' = (Ret tt, w2) /\ heap w2 = srest s w /\ drops w2 = drops w ++ xs) \/
     (r = Panic PUnwrap /\ refuses /\ heap w' = srest s w /\ drops w' = drops w ++ xs)).
Proof. exact p_C40_into_boxed_slice_partial. Qed.
Print Assumptions C40_into_boxed_slice_partial.

Example C40_into_boxed_slice_ex :
  @sreached env_debug N num_drop 4 (fst (sin env_debug num_drop)) (snd (sin env_debug num_drop)) [1; 2; 3] /\
  exists b w', @sv_into_boxed_slice env_debug N num_drop (fst (sin env_debug num_drop)) (snd (sin env_debug num_drop)) = (Ret b, w') /\
    sp_len b = 3.
Proof. exact x_C40_into_boxed_slice_ex. Qed.

(** An empty inline vector: its heap memory is shrunk to zero bytes. *)
Theorem C40_into_boxed_slice_refuted : forall (EN : Env) (T : Type) (EL : Elem T) (Cap : N) s (w : world T),
  0 < t_size -> sreached Cap s w [] -> is_stack s = true -> ~ refuses ->
  8 * t_size <= isize_max + 1 - t_align ->
  fst (sv_into_boxed_slice s w) = UB ZeroSizeAlloc.
Proof. exact p_C40_into_boxed_slice_refuted. Qed.
Print Assumptions C40_into_boxed_slice_refuted.

Example C40_into_boxed_slice_refuted_ex :
  let st := @sdemo env_debug N num_drop 4 w_start [SPush 1; SPop] in
  @sreached env_debug N num_drop 4 (fst st) (snd st) [] /\ is_stack (fst st) = true /\
  fst (@sv_into_boxed_slice env_debug N num_drop (fst st) (snd st)) = UB ZeroSizeAlloc.
Proof. exact x_C40_into_boxed_slice_refuted_ex. Qed.

(** [retain], [dedup_by] and [dedup_by_key] with any closures, panicking ones included, do the same
    to a [SmallVec], inline or not, as to a [Vec] with the same elements: same result, same elements
    left, same elements destroyed in the same order. *)
Theorem C71_retain : forall (EN : Env) (T : Type) (EL : Elem T) (Cap : N) s (w : world T) v wv xs
    (St : Type) (f : St -> T -> St * option bool) st,
  0 < t_size -> sreached Cap s w xs -> reached v wv xs ->
  exists o s' w' v' wv' zs ds,
    sv_retain Cap f st (s, w) = (o, (s', w')) /\ retain f st (v, wv) = (o, (v', wv')) /\
    sv_slice s' w' = (Ret zs, w') /\ vec_as_slice v' wv' = (Ret zs, wv') /\
    drops w' = drops w ++ ds /\ drops wv' = drops wv ++ ds /\ srest s' w' = srest s w.
Proof. exact p_C71_retain. Qed.
Print Assumptions C71_retain.

Theorem C71_dedup_by : forall (EN : Env) (T : Type) (EL : Elem T) (Cap : N) s (w : world T) v wv xs
    (St : Type) (f : St -> T -> T -> St * (T * T) * option bool) st,
  0 < t_size -> sreached Cap s w xs -> reached v wv xs ->
  exists o s' w' v' wv' zs ds,
    sv_dedup_by Cap f st (s, w) = (o, (s', w')) /\ dedup_by f st (v, wv) = (o, (v', wv')) /\
    sv_slice s' w' = (Ret zs, w') /\ vec_as_slice v' wv' = (Ret zs, wv') /\
    drops w' = drops w ++ ds /\ drops wv' = drops wv ++ ds /\ srest s' w' = srest s w.
Proof. exact p_C71_dedup_by. Qed.
Print Assumptions C71_dedup_by.

Theorem C71_dedup : forall (EN : Env) (T : Type) (EL : Elem T) (Cap : N) s (w : world T) v wv xs
    (same : T -> T -> bool),
  0 < t_size -> sreached Cap s w xs -> reached v wv xs ->
  exists o s' w' v' wv' zs ds,
    sv_dedup Cap same (s, w) = (o, (s', w')) /\ dedup same (v, wv) = (o, (v', wv')) /\
    sv_slice s' w' = (Ret zs, w') /\ vec_as_slice v' wv' = (Ret zs, wv') /\
    drops w' = drops w ++ ds /\ drops wv' = drops wv ++ ds /\ srest s' w' = srest s w.
Proof. exact p_C71_dedup. Qed.
Print Assumptions C71_dedup.

Theorem C71_dedup_by_key : forall (EN : Env) (T : Type) (EL : Elem T) (Cap : N) s (w : world T) v wv xs
    (St K : Type) (keq : K -> K -> bool) (key : St -> T -> St * T * option K) st,
  0 < t_size -> sreached Cap s w xs -> reached v wv xs ->
  exists o s' w' v' wv' zs ds,
    sv_dedup_by_key Cap keq key st (s, w) = (o, (s', w')) /\ dedup_by_key keq key st (v, wv) = (o, (v', wv')) /\
    sv_slice s' w' = (Ret zs, w') /\ vec_as_slice v' wv' = (Ret zs, wv') /\
    drops w' = drops w ++ ds /\ drops wv' = drops wv ++ ds /\ srest s' w' = srest s w.
Proof. exact p_C71_dedup_by_key. Qed.
Print Assumptions C71_dedup_by_key.

Example C71_ex :
  @sreached env_debug N num_drop 4 (fst (sin env_debug num_drop)) (snd (sin env_debug num_drop)) [1; 2; 3] /\
  @reached env_debug N num_drop (v123 env_debug num_drop) (w123 env_debug num_drop) [1; 2; 3] /\
  let f := fun (st x : N) => (st + x, Some (x =? 1)) in
  fst (@sv_retain env_debug N num_drop 4 N f 0 (sin env_debug num_drop)) = Ret 4 /\
  fst (@retain env_debug N _ (@vec_vecx env_debug N num_drop) N f 0 (v123 env_debug num_drop, w123 env_debug num_drop)) = Ret 4.
Proof. exact x_C71_ex. Qed.
