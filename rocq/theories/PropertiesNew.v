(** Properties C86-C87: creating shared pointers. *)
From Verif Require Import NewFacts.

(** [Rc::new]: one new block, from the allocator selected for the type, of the right layout, with counts one and
    zero and the value; the pointer shows it; nothing else changes. *)
Theorem C86_rc : forall (EN : Env) (T : Type) (EL : Elem T) d (w : world (rcbox T)) x sc l,
  fresh_ids w -> cur_scope w = Some sc -> struct_layout (16 + t_size) (N.max 8 t_align) l ->
  e_aok (ncalls w) (l_size l) = true ->
  let s := Selector MNone t_name in let a := e_alloc_for sc s in
  exists p b w', rc_new x (d, w) = (Ret p, (d, w')) /\ sp_ptr p = Blk b /\ sp_alloc p = a /\ sp_mark p = MNone /\
    one_new w w' b a l (RcBox 1 0 (Val x)) /\ events w' = events w ++ asked sc s a l (Some b) /\
    rc_as_ref p (d, w') = (Ret x, (d, w')) /\
    rc_strong_count p (d, w') = (Ret 1, (d, w')) /\ rc_weak_count p (d, w') = (Ret 0, (d, w')).
Proof. exact p_C86_rc. Qed.
Print Assumptions C86_rc.

Example C86_rc_ex :
  fresh_ids (World (T:=rcbox N) ∅ 3 0 [] [] (Some 7)) /\ struct_layout (16 + @t_size N num) (N.max 8 (@t_align N num)) (Layout 24 8) /\
  exists p w, @rc_new env_debug N num 42 ([], World ∅ 3 0 [] [] (Some 7)) = (Ret p, ([], w)) /\
    heap w !! 3 = Some (Block (sp_alloc p) (Layout 24 8) [Some (RcBox 1 0 (Val 42))]).
Proof. exact x_C86_rc_ex. Qed.

(** [Arc::new] and [Arc::try_new]. *)
Theorem C86_arc : forall (EN : Env) (T : Type) (EL : Elem T) d (w : world (rcbox T)) x sc l,
  fresh_ids w -> cur_scope w = Some sc -> struct_layout (16 + t_size) (N.max 8 t_align) l ->
  e_aok (ncalls w) (l_size l) = true ->
  let s := Selector MNone t_name in let a := e_alloc_for sc s in
  exists p b w', arc_try_new x (d, w) = (Ret (Ok p), (d, w')) /\ arc_new x (d, w) = (Ret p, (d, w')) /\
    sp_ptr p = Blk b /\ sp_alloc p = a /\ sp_mark p = MNone /\
    one_new w w' b a l (RcBox 1 0 (Val x)) /\ events w' = events w ++ asked sc s a l (Some b).
Proof. exact p_C86_arc. Qed.
Print Assumptions C86_arc.

Example C86_arc_ex :
  struct_layout (16 + @t_size N num) (N.max 8 (@t_align N num)) (Layout 24 8) /\
  exists p w, @arc_new env_debug N num 42 ([], World ∅ 3 0 [] [] (Some 7)) = (Ret p, ([], w)) /\
    heap w !! 3 = Some (Block (sp_alloc p) (Layout 24 8) [Some (RcBox 1 0 (Val 42))]).
Proof. exact x_C86_arc_ex. Qed.

(** [Urc::new] and [Urc::try_new]: a master with one strong fence and the value, and a fence with one strong
    reference that owns the pointer to the master; the new pointer shows the value and the counts. *)
Theorem C86_urc : forall (EN : Env) (T : Type) (EL : Elem T) mn fn d (w : world (ublock T)) x sc l,
  fresh_ids w -> cur_scope w = Some sc -> struct_layout (16 + t_size) (N.max 8 t_align) l ->
  e_aok (ncalls w) (l_size l) = true -> e_aok (S (ncalls w)) 56 = true ->
  let s1 := Selector MNone mn in let a1 := e_alloc_for sc s1 in
  let s2 := Selector MNone t_name in let a2 := e_alloc_for sc s2 in
  exists u m b c w1 w', urc_try_new mn fn x (d, w) = (Ret (Ok u), (d, w')) /\ urc_new mn fn x (d, w) = (Ret u, (d, w')) /\
    one_new w w1 b a1 l (UMaster 1 0 (Val x)) /\ one_new w1 w' c a2 (Layout 56 8) (UFence 1 0 m) /\
    sp_ptr m = Blk b /\ sp_alloc m = a1 /\ sp_mark m = MNone /\
    sp_ptr (up_fence u) = Blk c /\ sp_alloc (up_fence u) = a2 /\ sp_mark (up_fence u) = MNone /\
    events w' = events w ++ asked sc s1 a1 l (Some b) ++ asked sc s2 a2 (Layout 56 8) (Some c) /\
    urc_deref mn u (d, w') = (Ret x, (d, w')) /\ urc_fence_counts fn u (d, w') = (Ret (1, 0), (d, w')) /\
    urc_is_sole mn fn u (d, w') = (Ret true, (d, w')).
Proof. exact p_C86_urc. Qed.
Print Assumptions C86_urc.

Example C86_urc_ex :
  struct_layout (16 + @t_size N num) (N.max 8 (@t_align N num)) (Layout 24 8) /\
  exists u w, @urc_new env_debug N num 50 60 42 ([], World ∅ 3 0 [] [] (Some 7)) = (Ret u, ([], w)) /\
    up_data u = Blk 3 /\ sp_ptr (up_fence u) = Blk 4 /\ is_Some (heap w !! 3) /\ is_Some (heap w !! 4).
Proof. exact x_C86_urc_ex. Qed.

(** [Fence::into_urc]: the fence moves into new memory unchanged; the new pointer shows the value of its master. *)
Theorem C86_into_urc : forall (EN : Env) (T : Type) (EL : Elem T) mn fn d (w : world (ublock T)) x sc n k nf kf m b bl,
  fresh_ids w -> cur_scope w = Some sc -> e_aok (ncalls w) 56 = true ->
  sp_ptr m = Blk b -> heap w !! b = Some bl -> b_slots bl = [Some (UMaster nf kf (Val x))] ->
  let s := Selector MNone fn in let a := e_alloc_for sc s in
  exists u c w', fence_into_urc fn n k m (d, w) = (Ret u, (d, w')) /\
    one_new w w' c a (Layout 56 8) (UFence n k m) /\
    sp_ptr (up_fence u) = Blk c /\ sp_alloc (up_fence u) = a /\ sp_mark (up_fence u) = MNone /\
    events w' = events w ++ asked sc s a (Layout 56 8) (Some c) /\
    urc_deref mn u (d, w') = (Ret x, (d, w')) /\ urc_fence_counts fn u (d, w') = (Ret (n, k), (d, w')).
Proof. exact p_C86_into_urc. Qed.
Print Assumptions C86_into_urc.

Example C86_into_urc_ex :
  let w := World {[3 := Block 1 (Layout 24 8) [Some (UMaster 1 0 (Val 42))]]} 4 1 [] [] (Some 7) in
  fresh_ids w /\ sp_ptr (SPtr (Blk 3) 1 1 MNone) = Blk 3 /\ is_Some (heap w !! 3) /\
  exists u w', @fence_into_urc env_debug N 60 1 0 (SPtr (Blk 3) 1 1 MNone) ([], w) = (Ret u, ([], w')) /\ up_data u = Blk 3.
Proof. exact x_C86_into_urc_ex. Qed.

(** A refused creation: [Rc::new] and [Arc::new] panic, [Arc::try_new] returns an error, no memory is taken. *)
Theorem C87_refused_partial : forall (EN : Env) (T : Type) (EL : Elem T) d (w : world (rcbox T)) x sc l,
  cur_scope w = Some sc -> struct_layout (16 + t_size) (N.max 8 t_align) l -> e_aok (ncalls w) (l_size l) = false ->
  exists st, rc_new x (d, w) = (Panic PUnwrap, st) /\ arc_new x (d, w) = (Panic PUnwrap, st) /\
    arc_try_new x (d, w) = (Ret (Err AllocErr), st) /\ heap (snd st) = heap w.
Proof. exact p_C87_refused_partial. Qed.
Print Assumptions C87_refused_partial.

Example C87_refused_ex :
  struct_layout (16 + @t_size N num_drop) (N.max 8 (@t_align N num_drop)) (Layout 24 8) /\
  @e_aok (env_refusing 0) 0 24 = false /\
  fst (@rc_new (env_refusing 0) N num_drop 42 ([], World ∅ 3 0 [] [] (Some 7))) = Panic PUnwrap.
Proof. exact x_C87_refused_ex. Qed.

(** [Urc::try_new]: an error; memory that existed before is as before; the values of the caller are not destroyed
    twice or early (nothing is destroyed). *)
Theorem C87_urc_partial : forall (EN : Env) (T : Type) (EL : Elem T) mn fn d (w : world (ublock T)) x sc l,
  fresh_ids w -> cur_scope w = Some sc -> struct_layout (16 + t_size) (N.max 8 t_align) l ->
  e_aok (ncalls w) (l_size l) && e_aok (S (ncalls w)) 56 = false ->
  exists st, urc_try_new mn fn x (d, w) = (Ret (Err AllocErr), st) /\ urc_new mn fn x (d, w) = (Panic PUnwrap, st) /\
    fst st = d /\ heap w ⊆ heap (snd st) /\ (e_aok (ncalls w) (l_size l) = false -> heap (snd st) = heap w).
Proof. exact p_C87_urc_partial. Qed.
Print Assumptions C87_urc_partial.

Example C87_urc_ex :
  struct_layout (16 + @t_size N num) (N.max 8 (@t_align N num)) (Layout 24 8) /\
  @e_aok (env_refusing 1) 0 24 && @e_aok (env_refusing 1) 1 56 = false /\
  fst (@urc_try_new (env_refusing 1) N num 50 60 42 ([], World ∅ 3 0 [] [] (Some 7))) = Ret (Err AllocErr).
Proof. exact x_C87_urc_ex. Qed.

(** Without an environment: a panic, no memory taken. *)
Theorem C87_no_environment_partial : forall (EN : Env) (T : Type) (EL : Elem T) mn fn d (w : world (rcbox T)) (w2 : world (ublock T)) x,
  cur_scope w = None -> cur_scope w2 = None ->
  (exists st, rc_new x (d, w) = (Panic PNoEnv, st) /\ arc_new x (d, w) = (Panic PNoEnv, st) /\
     arc_try_new x (d, w) = (Panic PNoEnv, st) /\ heap (snd st) = heap w) /\
  exists st, urc_new mn fn x (d, w2) = (Panic PNoEnv, st) /\ urc_try_new mn fn x (d, w2) = (Panic PNoEnv, st) /\ heap (snd st) = heap w2.
Proof. exact p_C87_no_environment_partial. Qed.
Print Assumptions C87_no_environment_partial.

Example C87_no_environment_ex :
  fst (@rc_new env_debug N num_drop 42 ([], World ∅ 3 0 [] [] None)) = Panic PNoEnv /\
  fst (@urc_new env_debug N num_drop 50 60 42 ([], World ∅ 3 0 [] [] None)) = Panic PNoEnv.
Proof. exact x_C87_no_environment_ex. Qed.

(** The value given to a refused creation is gone: it is not returned, not in memory and never destroyed. *)
Theorem C87_value_refuted : forall (EN : Env) (T : Type) (EL : Elem T) d (w : world (rcbox T)) x sc l,
  cur_scope w = Some sc -> struct_layout (16 + t_size) (N.max 8 t_align) l -> e_aok (ncalls w) (l_size l) = false ->
  exists w', arc_try_new x (d, w) = (Ret (Err AllocErr), (d, w')) /\ rc_new x (d, w) = (Panic PUnwrap, (d, w')) /\
    heap w' = heap w.
Proof. exact p_C87_value_refuted. Qed.
Print Assumptions C87_value_refuted.

Example C87_value_ex :
  @t_needs_drop N num_drop = true /\
  fst (snd (@rc_new (env_refusing 0) N num_drop 42 ([], World ∅ 3 0 [] [] (Some 7)))) = [].
Proof. exact x_C87_value_ex. Qed.

(** When only the second allocation of [Urc::try_new] is refused, the first block stays allocated for ever: no
    pointer to it is returned. *)
Theorem C87_urc_leak_refuted : forall (EN : Env) (T : Type) (EL : Elem T) mn fn d (w : world (ublock T)) x sc l,
  fresh_ids w -> cur_scope w = Some sc -> struct_layout (16 + t_size) (N.max 8 t_align) l ->
  e_aok (ncalls w) (l_size l) = true -> e_aok (S (ncalls w)) 56 = false ->
  exists b a w', urc_try_new mn fn x (d, w) = (Ret (Err AllocErr), (d, w')) /\
    one_new w w' b a l (UMaster 1 0 (Val x)).
Proof. exact p_C87_urc_leak_refuted. Qed.
Print Assumptions C87_urc_leak_refuted.

Example C87_urc_leak_ex :
  @e_aok (env_refusing 1) 0 24 = true /\ @e_aok (env_refusing 1) 1 56 = false /\
  heap (snd (snd (@urc_try_new (env_refusing 1) N num 50 60 42 ([], World ∅ 3 0 [] [] (Some 7))))) <> ∅.
Proof. exact x_C87_urc_leak_ex. Qed.
