(** Properties C01-C05: boxes, fresh arrays, reservations. *)
From Verif Require Import VecFacts.

(** Elements without a destructor: the box lives in memory of the selected allocator, shows the
    value, and releases exactly that memory, whatever else happened in between. *)
Theorem C01_box_partial : forall (EN : Env) (T : Type) (EL : Elem T) (w : world T) x m sc,
  0 < t_size -> t_needs_drop = false -> cur_scope w = Some sc ->
  e_aok (ncalls w) t_size = true ->
  let a := e_alloc_for sc (Selector m t_name) in
  let l := Layout t_size t_align in
  exists p b w1, box_new_with x m w = (Ret p, w1) /\
    sp_deref p w1 = (Ret x, w1) /\
    (fresh_ids w -> heap w !! b = None) /\
    heap w1 = <[b := Block a l [Some x]]> (heap w) /\
    events w1 = events w ++ [EvSelect sc (Selector m t_name); EvAlloc a l (Some b)] /\
    drops w1 = drops w /\
    forall w2, heap w2 !! b = heap w1 !! b ->
      sp_deref p w2 = (Ret x, w2) /\
      exists w3, fst (box_drop p w2) = (if t_needs_drop && t_drop_panics x then Panic PDrop else Ret tt) /\
        snd (box_drop p w2) = w3 /\
        heap w3 = delete b (heap w2) /\ drops w3 = drops w2 ++ [x] /\
        events w3 = events w2 ++ [EvDealloc a b l].
Proof. exact p_C01_box_partial. Qed.
Print Assumptions C01_box_partial.

Example C01_box_ex :
  @t_needs_drop N num = false /\ cur_scope w_start = Some 7 /\
  @e_aok env_debug (ncalls w_start) (@t_size N num) = true /\
  exists p w1, @box_new_with env_debug N num 42 (MType 3) w_start = (Ret p, w1) /\ sp_alloc p = 110.
Proof. exact x_C01_box_ex. Qed.

(** Every successful allocation of a box for a type with drop glue runs a destructor on
    uninitialised memory. *)
Theorem C01_box_drop_glue_refuted : forall (EN : Env) (T : Type) (EL : Elem T) (w : world T) x m sc,
  0 < t_size -> t_needs_drop = true -> cur_scope w = Some sc ->
  e_aok (ncalls w) t_size = true ->
  fst (box_new_with x m w) = UB UninitDrop.
Proof. exact p_C01_box_drop_glue_refuted. Qed.
Print Assumptions C01_box_drop_glue_refuted.

Example C01_box_drop_glue_ex :
  @t_needs_drop N num_drop = true /\ 0 < @t_size N num_drop /\
  fst (@box_new_with env_release N num_drop 42 MNone w_start) = UB UninitDrop.
Proof. exact x_C01_box_drop_glue_ex. Qed.

(** Boxing a zero-sized value requests zero bytes from the allocator. *)
Theorem C01_box_zst_refuted : forall (EN : Env) (T : Type) (EL : Elem T) (w : world T) x m sc,
  t_size = 0 -> cur_scope w = Some sc -> fst (box_new_with x m w) = UB ZeroSizeAlloc.
Proof. exact p_C01_box_zst_refuted. Qed.
Print Assumptions C01_box_zst_refuted.

Example C01_box_zst_ex : @t_size unit zst = 0 /\
  fst (@box_new_with env_release unit zst tt MNone wz_start) = UB ZeroSizeAlloc.
Proof. exact x_C01_box_zst_ex. Qed.

(** * C02 *)

Theorem C02_box_refused : forall (EN : Env) (T : Type) (EL : Elem T) (w : world T) x m sc,
  0 < t_size -> cur_scope w = Some sc -> e_aok (ncalls w) t_size = false ->
  t_drop_panics x = false ->
  exists w', sp_alloc_val x (Selector m t_name) w = (Ret (Err AllocErr), w') /\
    box_new_with x m w = (Panic PUnwrap, w') /\
    heap w' = heap w /\ drops w' = drops w ++ [x].
Proof. exact p_C02_box_refused. Qed.
Print Assumptions C02_box_refused.

Example C02_box_refused_ex :
  cur_scope w_start = Some 7 /\ @e_aok (env_refusing 0) (ncalls w_start) (@t_size N num_drop) = false /\
  fst (@box_new_with (env_refusing 0) N num_drop 42 MNone w_start) = Panic PUnwrap.
Proof. exact x_C02_box_refused_ex. Qed.

(** Without an environment nothing is allocated either. *)
Theorem C02_box_no_environment : forall (EN : Env) (T : Type) (EL : Elem T) (w : world T) x m,
  0 < t_size -> cur_scope w = None -> t_drop_panics x = false ->
  exists w', box_new_with x m w = (Panic PNoEnv, w') /\ heap w' = heap w /\ drops w' = drops w ++ [x].
Proof. exact p_C02_box_no_environment. Qed.
Print Assumptions C02_box_no_environment.

Example C02_box_no_environment_ex :
  fst (@box_new_with env_debug N num_drop 42 MNone (set_cur None w_start)) = Panic PNoEnv.
Proof. exact x_C02_box_no_environment_ex. Qed.

(** Whatever live box it is given (the block at its address holds the value, with its layout and
    allocator), [into_inner] uses and releases memory that it has already released. *)
Theorem C03_into_inner_refuted : forall (EN : Env) (T : Type) (EL : Elem T) (w : world T) p b x,
  0 < t_size -> sp_ptr p = Blk b -> sp_len p = 1 ->
  heap w !! b = Some (Block (sp_alloc p) (Layout t_size t_align) [Some x]) ->
  fst (box_into_inner p w) = UB UseAfterFree.
Proof. exact p_C03_into_inner_refuted. Qed.
Print Assumptions C03_into_inner_refuted.

Example C03_into_inner_ex : exists p w1,
  @box_new_with env_release N num 42 MNone w_start = (Ret p, w1) /\
  sp_ptr p = Blk 1 /\ sp_len p = 1 /\
  heap w1 !! 1 = Some (Block (sp_alloc p) (Layout 8 8) [Some 42]) /\
  fst (@box_into_inner N num p w1) = UB UseAfterFree.
Proof. exact x_C03_into_inner_ex. Qed.

(** * C04 *)

Theorem C04_with_capacity : forall (EN : Env) (T : Type) (EL : Elem T) (w : world T) c m,
  0 < t_size -> wok w ->
  exists r w', vec_try_with_capacity_and_marker c m w = (Ret r, w') /\
    (vec_with_capacity_and_marker c m w =
       (match r with Ok v => Ret v | Err _ => Panic PUnwrap end, w')) /\
    match r with
    | Ok v => vcap v = c /\ backed w' v /\ vec_as_slice v w' = (Ret [], w') /\
              delete_ptr (vdata v) (heap w') = heap w /\ c * t_size <= isize_max + 1 - t_align
    | Err CapacityOverflow => isize_max + 1 - t_align < c * t_size /\ w' = w
    | Err AllocErr => heap w' = heap w /\ c * t_size <= isize_max + 1 - t_align /\
                      e_aok (ncalls w) (c * t_size) = false
    end.
Proof. exact p_C04_with_capacity. Qed.
Print Assumptions C04_with_capacity.

Example C04_with_capacity_ex : wok w_start /\ exists v w',
  @vec_try_with_capacity_and_marker env_debug N num 5 (MType 3) w_start = (Ret (Ok v), w') /\
  @vcap N num v = 5 /\
  @vec_try_with_capacity_and_marker env_debug N num (2 ^ 61) MNone w_start
    = (Ret (Err CapacityOverflow), w_start).
Proof. exact x_C04_with_capacity_ex. Qed.

(** Vectors of zero-sized elements always report the largest capacity. *)
Theorem C04_with_capacity_zst : forall (EN : Env) (T : Type) (EL : Elem T) (w : world T) c m sc,
  t_size = 0 -> cur_scope w = Some sc ->
  exists v w', vec_try_with_capacity_and_marker c m w = (Ret (Ok v), w') /\
    vcap v = usize_max /\ heap w' = heap w /\ ncalls w' = ncalls w.
Proof. exact p_C04_with_capacity_zst. Qed.
Print Assumptions C04_with_capacity_zst.

Example C04_with_capacity_zst_ex :
  @t_size unit zst = 0 /\ cur_scope wz_start = Some 7.
Proof. exact x_C04_with_capacity_zst_ex. Qed.

(** For every request that is not [unnoticed], whatever the outcome. *)
Theorem C05_reserve_partial : forall (EN : Env) (T : Type) (EL : Elem T) v (w : world T) xs k n,
  0 < t_size -> reached v w xs ->
  ~ unnoticed k (llen xs) (vcap v) n ->
  exists r v' w', vexec (reserve_call k n) (v, w) = (r, (v', w')) /\
    backed w' v' /\ vec_as_slice v' w' = (Ret xs, w') /\
    ((r = Ret RUnit \/ r = Ret (RResult (Ok tt))) /\ llen xs + n <= vcap v' \/
     ((exists p, r = Panic p) \/ exists e, r = Ret (RResult (Err e))) /\ v' = v /\ drops w' = drops w).
Proof. exact p_C05_reserve_partial. Qed.
Print Assumptions C05_reserve_partial.

Example C05_reserve_ex :
  @reached env_debug N num (v123 env_debug num) (w123 env_debug num) [1; 2; 3] /\ @no_drop_panic N num /\
  ~ @unnoticed env_debug N num RReserve 3 (@vcap N num (v123 env_debug num)) 40 /\
  ~ @unnoticed env_debug N num RTryReserveExact 3 (@vcap N num (v123 env_debug num)) (2 ^ 63) /\
  fst (@vexec env_debug N num (reserve_call RTryReserveExact (2 ^ 63)) (v123 env_debug num, w123 env_debug num))
    = Panic PArith.
Proof. exact x_C05_reserve_ex. Qed.

(** Every [unnoticed] request is undefined, or leaves a vector that reports memory it does not have, unless
    the allocator happens to refuse the wrapped size. *)
Theorem C05_oversized_refuted : forall (EN : Env) (T : Type) (EL : Elem T) v (w : world T) xs k n,
  0 < t_size -> reached v w xs -> unnoticed k (llen xs) (vcap v) n ->
  exists r v' w', vexec (reserve_call k n) (v, w) = (r, (v', w')) /\
    ((exists u, r = UB u) \/
     ((r = Ret RUnit \/ r = Ret (RResult (Ok tt))) /\ ~ backed w' v') \/
     e_aok (ncalls w) ((capacity_for k (llen xs) (vcap v) n * t_size) mod 2 ^ 64) = false).
Proof. exact p_C05_oversized_refuted. Qed.
Print Assumptions C05_oversized_refuted.

Example C05_oversized_ex :
  let st := @demo env_release N num w_start [OPush 1] in
  @reached env_release N num (fst st) (snd st) [1] /\
  @unnoticed env_release N num RTryReserveExact 1 (@vcap N num (fst st)) (2 ^ 61) /\
  @unnoticed env_debug N num RReserve 1 1 (2 ^ 60).
Proof. exact x_C05_oversized_ex. Qed.

(** Release build: a vector of one element that asks for 2^61 more gets a block of eight bytes and
    reports room for 2^61+1 elements. *)
Theorem C05_reserve_refuted :
  exists (v : vec) (w : world N), @reached env_release N num v w [1] /\
    exists v' w', @vec_try_reserve_exact env_release N num (2 ^ 61) (v, w) = (Ret (Ok tt), (v', w')) /\
      @vcap N num v' = 2 ^ 61 + 1 /\ ~ @backed N num w' v' /\
      exists b blk, vdata v' = Blk b /\ heap w' !! b = Some blk /\ b_layout blk = Layout 8 8.
Proof. exact p_C05_reserve_refuted. Qed.
Print Assumptions C05_reserve_refuted.
