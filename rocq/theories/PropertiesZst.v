(** Property C117: SmallVec of zero-sized elements. *)
From Verif Require Import ZstFacts.

(** As long as everything fits inline (inline capacity at least 4, the growth step of zero-sized
    types) and [insert] and [move_to_heap] are not called: the history follows the list specification
    of [SmallVec] and nothing is refused; the contents stay inline, the allocator is never called,
    and dropping the vector destroys exactly the contents. *)
Theorem C117_inline_partial : forall (EN : Env) (T : Type) (EL : Elem T) (Cap : N) (w : world T) ops,
  t_size = 0 -> (forall x y : T, x = y) -> no_drop_panic ->
  4 <= Cap -> total_sdemand ops <= Cap -> Cap + N.max 1 (total_sdemand ops) <= usize_max ->
  Forall (fun op => match op with SInsert _ _ | SMoveToHeap => False | _ => True end) ops ->
  exists outs ins s w1 w2 xs ds ls,
    srun Cap ops (sv_new Cap, w) = (outs, (s, w1)) /\ strace False t_clone [] ops ins outs xs ds ls /\
    Forall (fun o => o.1 = true) outs /\ sv_slice s w1 = (Ret xs, w1) /\ sv_len s = llen xs /\
    heap w1 = heap w /\ ncalls w1 = ncalls w /\
    sv_drop_val s w1 = (Ret tt, w2) /\ heap w2 = heap w /\ ncalls w2 = ncalls w /\
    drops w2 = drops w ++ ds ++ xs.
Proof. exact p_C117_inline_partial. Qed.
Print Assumptions C117_inline_partial.

Example C117_inline_ex :
  let ops := [SPush tt; SPush tt; SExtendSlice [tt]; SAppend [tt]; SRemove 0; SSwapRemove 2; SPop; SIndex 3; SAsSlice] in
  total_sdemand ops <= 4 /\
  Forall (fun op : sop unit => match op with SInsert _ _ | SMoveToHeap => False | _ => True end) ops /\
  @sdemo_outs env_debug unit zst 4 wz_start ops =
    [(true, Ret RUnit); (true, Ret RUnit); (true, Ret RUnit); (true, Ret RUnit); (true, Ret (RVal tt));
     (true, Ret (RVal tt)); (true, Ret (ROpt (Some tt))); (true, Panic PUnwrap); (true, Ret (RList [tt]))].
Proof. exact x_C117_inline_ex. Qed.

(** One element more than fits inline can be pushed; the next push, and every later request for room,
    panics with a capacity overflow although a vector of zero-sized elements never needs memory; and
    dropping the vector releases a pointer that was never allocated. *)
Theorem C117_spill_refuted : forall (EN : Env) (T : Type) (EL : Elem T) (Cap : N) (w : world T) x sc,
  t_size = 0 -> (forall x y : T, x = y) -> no_drop_panic -> cur_scope w = Some sc ->
  4 <= Cap -> Cap + 1 <= usize_max ->
  exists outs s w1,
    srun Cap (replicate (N.to_nat (Cap + 1)) (SPush x)) (sv_new Cap, w) = (outs, (s, w1)) /\
    Forall (fun o => o.2 = Ret RUnit) outs /\ sv_len s = Cap + 1 /\ is_stack s = false /\
    sv_push Cap x (s, w1) = (Panic PCapacity, (s, add_drop x w1)) /\
    (forall n, 0 < n -> sv_reserve Cap n (s, w1) = (Panic PCapacity, (s, w1))) /\
    fst (sv_drop_val s w1) = UB Dangling_access.
Proof. exact p_C117_spill_refuted. Qed.
Print Assumptions C117_spill_refuted.

Example C117_spill_ex :
  @no_drop_panic unit zst /\ cur_scope wz_start = Some 7 /\
  @sdemo_outs env_debug unit zst 4 wz_start (replicate 6 (SPush tt)) =
    [(true, Ret RUnit); (true, Ret RUnit); (true, Ret RUnit); (true, Ret RUnit); (true, Ret RUnit);
     (false, Panic PCapacity)].
Proof. exact x_C117_spill_ex. Qed.

(** A spilled vector of zero-sized elements: the calls that ask for no room still follow the list
    specification and destroy exactly what it says; memory is never touched. *)
Theorem C117_heap_partial : forall (EN : Env) (T : Type) (EL : Elem T) (Cap : N) (v : vec) m (w : world T) xs ops,
  t_size = 0 -> (forall x y : T, x = y) -> no_drop_panic ->
  v_len v = llen xs -> llen xs <= usize_max ->
  Forall (fun op => match op with
    | SPop | SRemove _ | SSwapRemove _ | STruncate _ | SClear | SShrinkTo _ | SShrinkToFit
    | SIndex _ | SAssign _ _ | SGet _ | SAsSlice | SLen | SSetScope _ => True
    | _ => False end) ops ->
  exists outs ins v' w' xs' ds,
    srun Cap ops (SVec (Heap v) m, w) = (outs, (SVec (Heap v') m, w')) /\
    strace False t_clone xs ops ins outs xs' ds [] /\
    sv_slice (SVec (Heap v') m) w' = (Ret xs', w') /\ v_len v' = llen xs' /\
    heap w' = heap w /\ ncalls w' = ncalls w /\ drops w' = drops w ++ ds.
Proof. exact p_C117_heap_partial. Qed.
Print Assumptions C117_heap_partial.

Example C117_heap_ex :
  @sdemo_outs env_debug unit zst 4 wz_start
    (replicate 5 (SPush tt) ++ [SRemove 0; SSwapRemove 1; SIndex 3; STruncate 2; SAssign 1 tt; SAsSlice; SPop; SClear]) =
    (pair true <$> replicate 5 (Ret RUnit)) ++ (pair false <$>
     [Ret (RVal tt); Ret (RVal tt); Panic PUnwrap; Ret RUnit; Ret RUnit; Ret (RList [tt; tt]);
      Ret (ROpt (Some tt)); Ret RUnit]).
Proof. exact x_C117_heap_ex. Qed.

(** Moving a spilled vector back after taking an element out releases that pointer as well. *)
Theorem C117_to_stack_refuted : forall (EN : Env) (T : Type) (EL : Elem T) (Cap : N) (w : world T) x sc,
  t_size = 0 -> (forall x y : T, x = y) -> no_drop_panic -> cur_scope w = Some sc ->
  4 <= Cap -> Cap + 1 <= usize_max ->
  exists outs s w1,
    srun Cap (replicate (N.to_nat Cap) (SPush x) ++ [SPush x; SPop]) (sv_new Cap, w) = (outs, (s, w1)) /\
    Forall (fun o => exists r, o.2 = Ret r) outs /\ sv_len s = Cap /\ is_stack s = false /\
    fst (sv_try_move_to_stack Cap (s, w1)) = UB Dangling_access.
Proof. exact p_C117_to_stack_refuted. Qed.
Print Assumptions C117_to_stack_refuted.

Example C117_to_stack_ex :
  @no_drop_panic unit zst /\ cur_scope wz_start = Some 7 /\
  @sdemo_outs env_debug unit zst 4 wz_start (replicate 4 (SPush tt) ++ [SPush tt; SPop; SLen]) =
    [(true, Ret RUnit); (true, Ret RUnit); (true, Ret RUnit); (true, Ret RUnit); (true, Ret RUnit);
     (false, Ret (ROpt (Some tt))); (false, Ret (RNum 4))].
Proof. exact x_C117_to_stack_ex. Qed.
