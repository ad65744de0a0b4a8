(** Property C118: compaction, iteration, conversion and destruction of Vecs of zero-sized elements; C117: compaction and conversion of SmallVecs. *)
From Verif Require Import ZstFacts2.

(** [retain] keeps and destroys exactly what the predicate says, its state threaded in order, of the
    contents without their second element when the first is accepted (that element is skipped, as
    for other element types); the allocator is not called and the pointer stays. *)
Theorem C118_retain_partial : forall (EN : Env) (T : Type) (EL : Elem T) v (w : world T) xs
    (St : Type) (f : St -> T -> St * bool) st,
  t_size = 0 -> (forall x y : T, x = y) -> no_drop_panic -> v_len v = llen xs -> llen xs <= usize_max ->
  let '(st', k, d) := retained f st (match xs with
        | x :: _ :: zs => if snd (f st x) then x :: zs else xs
        | _ => xs end) in
  exists v' w',
    retain (fun st x => let '(st', b) := f st x in (st', Some b)) st (v, w) = (Ret st', (v', w')) /\
    v_ptr v' = v_ptr v /\ v_len v' = llen k /\
    heap w' = heap w /\ ncalls w' = ncalls w /\ drops w' = drops w ++ d.
Proof. exact p_C118_retain_partial. Qed.
Print Assumptions C118_retain_partial.

Example C118_retain_ex :
  let st := @demo env_debug unit zst wz_start [OPush tt; OPush tt; OPush tt; OPush tt; OPush tt] in
  let r := @retain env_debug unit vec (@vec_vecx env_debug unit zst) nat (fun n _ => (S n, Some (Nat.odd n))) 0%nat st in
  v_len (fst st) = 5 /\ fst r = Ret 5%nat /\ v_len (fst (snd r)) = 2.
Proof. exact x_C118_retain_ex. Qed.

(** [dedup] leaves the heads of the runs of the same list without its second element. *)
Theorem C118_dedup_partial : forall (EN : Env) (T : Type) (EL : Elem T) v (w : world T) xs
    (same : T -> T -> bool),
  t_size = 0 -> (forall x y : T, x = y) -> no_drop_panic -> v_len v = llen xs -> llen xs <= usize_max ->
  exists v' w' k d,
    dedup same (v, w) = (Ret tt, (v', w')) /\
    runs (fun a b => same b a) (match xs with x :: _ :: zs => x :: zs | _ => xs end) k d /\
    v_ptr v' = v_ptr v /\ v_len v' = llen k /\
    heap w' = heap w /\ ncalls w' = ncalls w /\ drops w' = drops w ++ d.
Proof. exact p_C118_dedup_partial. Qed.
Print Assumptions C118_dedup_partial.

Example C118_dedup_ex :
  let st := @demo env_debug unit zst wz_start [OPush tt; OPush tt; OPush tt; OPush tt] in
  let r := @dedup env_debug unit vec (@vec_vecx env_debug unit zst) (fun _ _ => true) st in
  v_len (fst st) = 4 /\ fst r = Ret tt /\ v_len (fst (snd r)) = 1 /\ drops (snd (snd r)) = [tt; tt].
Proof. exact x_C118_dedup_ex. Qed.

(** Taking from both ends of the consuming iterator: as from a list; nothing is destroyed. *)
Theorem C118_into_iter_partial : forall (EN : Env) (T : Type) (EL : Elem T) v (w : world T) xs cs,
  t_size = 0 -> (forall x y : T, x = y) -> v_len v = llen xs -> llen xs <= usize_max -> deque_ok cs xs ->
  exists v' n,
    it_run cs (vec_into_iter v, w) = (Ret <$> fst (deque cs xs), (IntoIter v' n, w)) /\
    v_ptr v' = v_ptr v /\ v_len v' = n + llen (snd (deque cs xs)).
Proof. exact p_C118_into_iter_partial. Qed.
Print Assumptions C118_into_iter_partial.

Example C118_into_iter_ex :
  let st := @demo env_debug unit zst wz_start [OPush tt; OPush tt] in
  deque_ok [true; false; true] [tt; tt] /\ v_len (fst st) = llen [tt; tt] /\
  fst (@it_run env_debug unit zst [true; false; true] (vec_into_iter (fst st), snd st))
    = [Ret (Some tt); Ret (Some tt); Ret None].
Proof. exact x_C118_into_iter_ex. Qed.

(** A predicate that accepts everything still loses an element, which is never destroyed. *)
Theorem C118_retain_refuted : forall (EN : Env) (T : Type) (EL : Elem T) v (w : world T),
  t_size = 0 -> (forall x y : T, x = y) -> no_drop_panic -> 2 <= v_len v -> v_len v <= usize_max ->
  exists v' w',
    retain (fun (st : unit) (x : T) => (st, Some true)) tt (v, w) = (Ret tt, (v', w')) /\
    v_len v' = v_len v - 1 /\ drops w' = drops w.
Proof. exact p_C118_retain_refuted. Qed.
Print Assumptions C118_retain_refuted.

Example C118_retain_bad_ex :
  let st := @demo env_debug unit zst wz_start [OPush tt; OPush tt; OPush tt] in
  @t_size unit zst = 0 /\ v_len (fst st) = 3.
Proof. exact x_C118_retain_bad_ex. Qed.

(** However a vector from [new] was used, dropping it, and dropping its consuming iterator after any
    calls, releases a pointer that was never allocated. *)
Theorem C118_drop_refuted : forall (EN : Env) (T : Type) (EL : Elem T) (w : world T) v0 w0 ops outs v w1,
  t_size = 0 -> (forall x y : T, x = y) -> no_drop_panic ->
  vec_new w = (Ret v0, w0) -> vrun ops (v0, w0) = (outs, (v, w1)) ->
  fst (vec_drop_val v w1) = UB Dangling_access /\
  (forall cs (xs : list T) os i w2, v_len v = llen xs -> llen xs <= usize_max -> deque_ok cs xs ->
    it_run cs (vec_into_iter v, w1) = (os, (i, w2)) -> fst (it_drop (i, w2)) = UB Dangling_access).
Proof. exact p_C118_drop_refuted. Qed.
Print Assumptions C118_drop_refuted.

Example C118_drop_ex :
  let st := @demo env_debug unit zst wz_start [OPush tt; OPush tt; OPop; OShrinkToFit] in
  @t_size unit zst = 0 /\ v_len (fst st) = llen [tt] /\ deque_ok [true] [tt] /\
  fst (@it_drop env_debug unit zst (snd (@it_run env_debug unit zst [true] (vec_into_iter (fst st), snd st))))
    = UB Dangling_access.
Proof. exact x_C118_drop_ex. Qed.

(** [append] moves the elements and leaves the other vector empty; building from an array keeps all
    of its elements; neither calls the allocator nor destroys anything. *)
Theorem C118_append_partial : forall (EN : Env) (T : Type) (EL : Elem T) v o (w : world T),
  t_size = 0 -> v_len v + v_len o <= usize_max ->
  exists v' o', vec_append o (v, w) = (Ret o', (v', w)) /\
    v_len v' = v_len v + v_len o /\ v_len o' = 0 /\ v_ptr v' = v_ptr v /\ v_ptr o' = v_ptr o.
Proof. exact p_C118_append_partial. Qed.
Print Assumptions C118_append_partial.

Example C118_append_ex :
  let st := @demo env_debug unit zst wz_start [OPush tt; OPush tt] in
  fst (@vec_append env_debug unit zst (fst st) st) = Ret (Vec (v_ptr (fst st)) 0) /\
  v_len (fst (snd (@vec_append env_debug unit zst (fst st) st))) = 4.
Proof. exact x_C118_append_ex. Qed.

Theorem C118_from_array_partial : forall (EN : Env) (T : Type) (EL : Elem T) (w : world T) l sc,
  t_size = 0 -> cur_scope w = Some sc -> llen l <= usize_max ->
  exists v w', vec_from_array l w = (Ret v, w') /\ v_len v = llen l /\
    heap w' = heap w /\ ncalls w' = ncalls w /\ drops w' = drops w.
Proof. exact p_C118_from_array_partial. Qed.
Print Assumptions C118_from_array_partial.

Example C118_from_array_ex :
  cur_scope wz_start = Some 7 /\
  v_len <$> (match fst (@vec_from_array env_debug unit zst [tt; tt; tt] wz_start) with Ret v => Some v | _ => None end) = Some 3.
Proof. exact x_C118_from_array_ex. Qed.

(** Turning a vector from [new] into a boxed slice loses its elements: the slice is empty, and none
    of them is destroyed. *)
Theorem C118_boxed_refuted : forall (EN : Env) (T : Type) (EL : Elem T) (w : world T) v0 w0 ops outs v w1,
  t_size = 0 -> vec_new w = (Ret v0, w0) -> vrun ops (v0, w0) = (outs, (v, w1)) -> v_len v <= usize_max ->
  exists b, vec_into_boxed_slice v w1 = (Ret b, w1) /\ sp_len b = 0.
Proof. exact p_C118_boxed_refuted. Qed.
Print Assumptions C118_boxed_refuted.

Example C118_boxed_ex :
  let st := @demo env_debug unit zst wz_start [OPush tt; OPush tt; OPush tt] in
  v_len (fst st) = 3 /\ fst (@vec_into_boxed_slice env_debug unit zst (fst st) (snd st)) = Ret (v_ptr (fst st)).
Proof. exact x_C118_boxed_ex. Qed.

(** [retain] and [dedup] of a [SmallVec], inline or spilled, do what they do for [Vec]; the contents stay
    where they are. *)
Theorem C117_retain_partial : forall (EN : Env) (T : Type) (EL : Elem T) (Cap : N) (s : svec T) (w : world T) xs
    (St : Type) (f : St -> T -> St * bool) st,
  t_size = 0 -> (forall x y : T, x = y) -> no_drop_panic -> Cap <= usize_max ->
  sv_len s = llen xs -> llen xs <= (if is_stack s then Cap else usize_max) ->
  let '(st', k, d) := retained f st (match xs with
        | x :: _ :: zs => if snd (f st x) then x :: zs else xs
        | _ => xs end) in
  exists s' w',
    sv_retain Cap (fun st x => let '(st', b) := f st x in (st', Some b)) st (s, w) = (Ret st', (s', w')) /\
    is_stack s' = is_stack s /\ sv_slice s' w' = (Ret k, w') /\
    heap w' = heap w /\ ncalls w' = ncalls w /\ drops w' = drops w ++ d.
Proof. exact p_C117_retain_partial. Qed.
Print Assumptions C117_retain_partial.

Theorem C117_dedup_partial : forall (EN : Env) (T : Type) (EL : Elem T) (Cap : N) (s : svec T) (w : world T) xs
    (same : T -> T -> bool),
  t_size = 0 -> (forall x y : T, x = y) -> no_drop_panic -> Cap <= usize_max ->
  sv_len s = llen xs -> llen xs <= (if is_stack s then Cap else usize_max) ->
  exists s' w' k d,
    sv_dedup Cap same (s, w) = (Ret tt, (s', w')) /\
    runs (fun a b => same b a) (match xs with x :: _ :: zs => x :: zs | _ => xs end) k d /\
    is_stack s' = is_stack s /\ sv_slice s' w' = (Ret k, w') /\
    heap w' = heap w /\ ncalls w' = ncalls w /\ drops w' = drops w ++ d.
Proof. exact p_C117_dedup_partial. Qed.
Print Assumptions C117_dedup_partial.

Example C117_compact_ex :
  let st := snd (@srun env_debug unit zst 4 (replicate 4 (SPush tt)) (sv_new 4, wz_start)) in
  let r := @sv_retain env_debug unit zst 4 nat (fun n _ => (S n, Some (Nat.odd n))) 0%nat st in
  let q := @sv_dedup env_debug unit zst 4 (fun _ _ => true) st in
  sv_len (fst st) = 4 /\ is_stack (fst st) = true /\ fst r = Ret 4%nat /\ sv_len (fst (snd r)) = 2 /\
  fst q = Ret tt /\ sv_len (fst (snd q)) = 1 /\ drops (snd (snd q)) = [tt; tt].
Proof. exact x_C117_compact_ex. Qed.

(** Building from an array that fits inline gives an empty vector: the elements are never destroyed, as
    for other element types (C37).  A larger array is held completely. *)
Theorem C117_from_array_refuted : forall (EN : Env) (T : Type) (EL : Elem T) (Cap : N) (w : world T) l,
  t_size = 0 -> llen l <= Cap ->
  exists s, sv_from_array Cap l w = (Ret s, w) /\ sv_slice s w = (Ret [], w) /\ sv_drop_val s w = (Ret tt, w).
Proof. exact p_C117_from_array_refuted. Qed.
Print Assumptions C117_from_array_refuted.

Theorem C117_from_array_partial : forall (EN : Env) (T : Type) (EL : Elem T) (Cap : N) (w : world T) l sc,
  t_size = 0 -> (forall x y : T, x = y) -> cur_scope w = Some sc -> Cap < llen l -> llen l <= usize_max ->
  exists s w', sv_from_array Cap l w = (Ret s, w') /\ sv_slice s w' = (Ret l, w') /\
    heap w' = heap w /\ ncalls w' = ncalls w /\ drops w' = drops w.
Proof. exact p_C117_from_array_partial. Qed.
Print Assumptions C117_from_array_partial.

Example C117_from_array_ex :
  fst (@sv_from_array env_debug unit zst 4 [tt; tt] wz_start) = Ret (sv_new 4) /\
  cur_scope wz_start = Some 7 /\ 1 < llen [tt; tt] /\
  (match fst (@sv_from_array env_debug unit zst 1 [tt; tt] wz_start) with Ret s => sv_len s | _ => 9 end) = 2.
Proof. exact x_C117_from_array_ex. Qed.

(** [into_vec] of an inline vector keeps the elements; but like every [Vec] of zero-sized elements
    the result releases a dangling pointer when it is dropped. *)
Theorem C117_into_vec_refuted : forall (EN : Env) (T : Type) (EL : Elem T) (s : svec T) (w : world T) xs sc,
  t_size = 0 -> (forall x y : T, x = y) -> no_drop_panic -> cur_scope w = Some sc ->
  is_stack s = true -> sv_len s = llen xs -> llen xs <= usize_max ->
  exists v w', sv_into_vec s w = (Ret v, w') /\ vec_as_slice v w' = (Ret xs, w') /\
    heap w' = heap w /\ ncalls w' = ncalls w /\ drops w' = drops w /\
    fst (vec_drop_val v w') = UB Dangling_access.
Proof. exact p_C117_into_vec_refuted. Qed.
Print Assumptions C117_into_vec_refuted.

Example C117_into_vec_ex :
  let st := snd (@srun env_debug unit zst 4 (replicate 3 (SPush tt)) (sv_new 4, wz_start)) in
  @no_drop_panic unit zst /\ cur_scope (snd st) = Some 7 /\ is_stack (fst st) = true /\ sv_len (fst st) = llen [tt; tt; tt].
Proof. exact x_C117_into_vec_ex. Qed.

(** [split_off] before the end of an inline vector whose tail fits the inline capacity of the result: head
    and tail; nothing is destroyed. *)
Theorem C117_split_off_partial : forall (EN : Env) (T : Type) (EL : Elem T) (Cap Len : N) (s : svec T) (w : world T) xs at_,
  t_size = 0 -> (forall x y : T, x = y) -> is_stack s = true -> sv_len s = llen xs -> llen xs <= Cap ->
  at_ < llen xs -> llen xs - at_ <= Len ->
  exists s' o, sv_split_off_into Cap Len at_ (s, w) = (Ret o, (s', w)) /\
    sv_slice s' w = (Ret (take (N.to_nat at_) xs), w) /\ sv_slice o w = (Ret (drop (N.to_nat at_) xs), w).
Proof. exact p_C117_split_off_partial. Qed.
Print Assumptions C117_split_off_partial.

Example C117_split_off_ex :
  let st := snd (@srun env_debug unit zst 4 (replicate 3 (SPush tt)) (sv_new 4, wz_start)) in
  is_stack (fst st) = true /\ sv_len (fst st) = llen [tt; tt; tt] /\
  (match fst (@sv_split_off_into env_debug unit zst 4 4 1 st) with Ret o => sv_len o | _ => 9 end) = 2.
Proof. exact x_C117_split_off_ex. Qed.

(** A vector that is full: its length cannot grow beyond 2^64 - 1.  The calls that would make it longer panic,
    the vector is as it was and the element that was to be added is destroyed. *)
Theorem C118_full_partial : forall (EN : Env) (T : Type) (EL : Elem T) v (w : world T),
  t_size = 0 -> no_drop_panic ->
  (v_len v = usize_max -> forall x, vec_push x (v, w) = (Panic PCapacity, (v, add_drop x w))) /\
  (v_len v = usize_max -> forall i x, i <= v_len v -> vec_insert i x (v, w) = (Panic PCapacity, (v, add_drop x w))) /\
  (forall o, usize_max < v_len v + v_len o -> vec_append o (v, w) = (Panic PCapacity, (v, w))) /\
  (forall l, usize_max < v_len v + llen l -> vec_extend_from_slice l (v, w) = (Panic PCapacity, (v, w))).
Proof. exact p_C118_full_partial. Qed.
Print Assumptions C118_full_partial.

Example C118_full_ex :
  let v := Vec (sp_dangling 1 MNone) usize_max in
  @t_size unit zst = 0 /\ fst (@vec_push env_release unit zst tt (v, wz_start)) = Panic PCapacity /\
  fst (@vec_insert env_release unit zst 3 tt (v, wz_start)) = Panic PCapacity /\
  fst (@vec_append env_release unit zst v (v, wz_start)) = Panic PCapacity.
Proof. exact x_C118_full_ex. Qed.
