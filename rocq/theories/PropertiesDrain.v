(** Properties C17 and C115: drain of Vec and SmallVec, every range. *)
From Verif Require Import DrainFacts.

(** A range [a..b] of any kind, [a] within the capacity (or without checks): unless [a = b] the call
    panics; in every case the vector now claims [a] elements.  With [a <= len] those after [a] are
    lost, with [a > len] the vector claims memory that holds no element. *)
Theorem C17_range_refuted : forall (EN : Env) (T : Type) (EL : Elem T) v (w : world T) xs lo hi a b,
  0 < t_size -> reached v w xs -> a = range_start lo -> b = range_end (llen xs) hi ->
  a <= usize_max -> b <= usize_max -> (a <= vcap v \/ e_checks = false) ->
  exists v', drain_new lo hi (v, w) =
      (if a =? b then Ret (Drain a 0 a a a) else Panic PIndex, (v', w)) /\
    v_len v' = a /\
    (a <= llen xs -> vec_as_slice v' w = (Ret (take (N.to_nat a) xs), w)) /\
    (forall ys w', vec_as_slice v' w = (Ret ys, w') -> llen ys = a) /\
    (e_strict = false -> drain_drop (Drain a 0 a a a) (v', w) = (Ret tt, (v', w))).
Proof. exact p_C17_range_refuted. Qed.
Print Assumptions C17_range_refuted.

(** Only a range that starts beyond the capacity, in a build with checks, panics and leaves the vector
    as it was. *)
Theorem C17_range_partial : forall (EN : Env) (T : Type) (EL : Elem T) v (w : world T) xs lo hi,
  0 < t_size -> reached v w xs -> range_start lo <= usize_max -> range_end (llen xs) hi <= usize_max ->
  vcap v < range_start lo -> e_checks = true ->
  drain_new lo hi (v, w) = (Panic PDebugAssert, (v, w)).
Proof. exact p_C17_range_partial. Qed.
Print Assumptions C17_range_partial.

(** Three elements in room for five: [drain(..)], [drain(1..=1)] and [drain(2..1)] panic, [drain(5..5)]
    is accepted and the vector then reads uninitialised memory. *)
Example C17_range_ex :
  let st := @demo env_debug N num_drop w_start [OReserveExact 5; OPush 1; OPush 2; OPush 3] in
  @reached env_debug N num_drop (fst st) (snd st) [1; 2; 3] /\ @vcap N num_drop (fst st) = 5 /\
  fst (@drain_new env_debug N vec (@vec_vecx env_debug N num_drop) Unbounded Unbounded st) = Panic PIndex /\
  fst (@drain_new env_debug N vec (@vec_vecx env_debug N num_drop) (Included 1) (Included 1) st) = Panic PIndex /\
  fst (@drain_new env_debug N vec (@vec_vecx env_debug N num_drop) (Included 2) (Excluded 1) st) = Panic PIndex /\
  fst (@drain_new env_debug N vec (@vec_vecx env_debug N num_drop) (Included 6) (Excluded 6) st) = Panic PDebugAssert /\
  (let r := @drain_new env_debug N vec (@vec_vecx env_debug N num_drop) (Included 5) (Excluded 5) st in
   fst r = Ret (Drain 5 0 5 5 5) /\ fst (@vec_as_slice N num_drop (fst (snd r)) (snd (snd r))) = UB UninitRead).
Proof. exact x_C17_range_ex. Qed.

(** [SmallVec::drain], inline and on the heap: a range [a..b] of any kind panics unless [a = b], and
    in every case the vector now claims [a] elements. *)
Theorem C115_range_refuted : forall (EN : Env) (T : Type) (EL : Elem T) (Cap : N) s (w : world T) xs lo hi a b,
  0 < t_size -> sreached Cap s w xs -> a = range_start lo -> b = range_end (llen xs) hi ->
  a <= usize_max -> b <= usize_max -> (a <= sv_capacity Cap s \/ e_checks = false) ->
  exists s', drain_new (Vecx0 := small_vecx Cap) lo hi (s, w) =
      (if a =? b then Ret (Drain a 0 a a a) else Panic PIndex, (s', w)) /\
    sv_len s' = a /\ is_stack s' = is_stack s /\
    (a <= llen xs -> sv_slice s' w = (Ret (take (N.to_nat a) xs), w)) /\
    (forall ys w', sv_slice s' w = (Ret ys, w') -> llen ys = a) /\
    drain_next (Vecx0 := small_vecx Cap) (Drain a 0 a a a) (s', w) = (Ret (None, Drain a 0 a a a), (s', w)) /\
    (e_strict = true -> drain_drop (Vecx0 := small_vecx Cap) (Drain a 0 a a a) (s', w) = (UB Precond, (s', w))) /\
    (e_strict = false -> drain_drop (Vecx0 := small_vecx Cap) (Drain a 0 a a a) (s', w) = (Ret tt, (s', w))).
Proof. exact p_C115_range_refuted. Qed.
Print Assumptions C115_range_refuted.

(** Only a range that starts beyond the capacity, in a build with checks, panics and leaves the vector
    as it was. *)
Theorem C115_range_partial : forall (EN : Env) (T : Type) (EL : Elem T) (Cap : N) s (w : world T) xs lo hi,
  0 < t_size -> sreached Cap s w xs -> range_start lo <= usize_max -> range_end (llen xs) hi <= usize_max ->
  sv_capacity Cap s < range_start lo -> e_checks = true ->
  drain_new (Vecx0 := small_vecx Cap) lo hi (s, w) = (Panic PDebugAssert, (s, w)).
Proof. exact p_C115_range_partial. Qed.
Print Assumptions C115_range_partial.

(** The iterator by itself, on a drain over the elements [a .. a + n) of the vector (which [drain_new]
    never makes for [n > 0]): [next] gives them in order. *)
Theorem C115_next_partial : forall (EN : Env) (T : Type) (EL : Elem T) (Cap : N) s (w : world T) xs a n st e o x,
  0 < t_size -> sreached Cap s w xs -> 1 <= n -> a + n <= llen xs -> xs !! N.to_nat a = Some x ->
  drain_next (Vecx0 := small_vecx Cap) (Drain a n st e o) (s, w) =
    (Ret (Some x, Drain (a + 1) (n - 1) st e o), (s, w)).
Proof. exact p_C115_next_partial. Qed.
Print Assumptions C115_next_partial.

(** [next_back] gives the last element, and then again: what remains starts at that element. *)
Theorem C115_next_back_refuted : forall (EN : Env) (T : Type) (EL : Elem T) (Cap : N) s (w : world T) xs a n st e o x,
  0 < t_size -> sreached Cap s w xs -> 2 <= n -> a + n <= llen xs ->
  xs !! N.to_nat (a + n - 1) = Some x ->
  exists d, drain_next_back (Vecx0 := small_vecx Cap) (Drain a n st e o) (s, w) = (Ret (Some x, d), (s, w)) /\
    dr_n d = n - 1 /\
    (exists d', drain_next (Vecx0 := small_vecx Cap) d (s, w) = (Ret (Some x, d'), (s, w))).
Proof. exact p_C115_next_back_refuted. Qed.
Print Assumptions C115_next_back_refuted.

(** Two elements inline with room for four, and the same on the heap: [drain(..)] panics and loses
    them all; [drain(4..4)] is accepted and the vector then reads uninitialised memory. *)
Example C115_ex :
  let dr lo hi := @drain_new env_debug N (svec N) (@small_vecx env_debug N num_drop 4) lo hi in
  let st := @sdemo env_debug N num_drop 4 w_start [SPush 1; SPush 2] in
  let sh := @sdemo env_debug N num_drop 4 w_start [SPush 1; SPush 2; SMoveToHeap] in
  @sreached env_debug N num_drop 4 (fst st) (snd st) [1; 2] /\ is_stack (fst st) = true /\
  @sreached env_debug N num_drop 4 (fst sh) (snd sh) [1; 2] /\ is_stack (fst sh) = false /\
  fst (dr Unbounded Unbounded st) = Panic PIndex /\ fst (dr Unbounded Unbounded sh) = Panic PIndex /\
  sv_len (fst (snd (dr Unbounded Unbounded st))) = 0 /\
  fst (dr (Included 5) (Excluded 5) st) = Panic PDebugAssert /\
  fst (dr (Included 4) (Excluded 4) st) = Ret (Drain 4 0 4 4 4) /\
  (let r := snd (dr (Included 4) (Excluded 4) st) in
   fst (@sv_slice N num_drop (fst r) (snd r)) = UB UninitRead).
Proof. exact x_C115_ex. Qed.
