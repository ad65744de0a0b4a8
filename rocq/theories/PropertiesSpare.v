(** Properties C88-C89: spare capacity. *)
From Verif Require Import SpareFacts.

(** The spare capacity of a vector with any history is the memory between its length and its capacity. *)
Theorem C88_spare : forall (EN : Env) (T : Type) (EL : Elem T) v (w : world T) xs,
  0 < t_size -> reached v w xs ->
  exists sp, vec_spare (v, w) = (Ret sp, (v, w)) /\ llen sp = vcap v - llen xs /\ llen xs <= vcap v /\
    vec_spare_len v (v, w) = (Ret (llen sp), (v, w)) /\ vec_is_full v = (llen sp =? 0) /\
    match vdata v with
    | Dangling => xs = [] /\ sp = []
    | Blk b => exists blk, heap w !! b = Some blk /\ b_slots blk = (Some <$> xs) ++ sp
    end.
Proof. exact p_C88_spare. Qed.
Print Assumptions C88_spare.

Example C88_spare_ex :
  @reached env_debug N num_drop (v123 env_debug num_drop) (w123 env_debug num_drop) [1; 2; 3].
Proof. exact x_C88_spare_ex. Qed.

(** Writing a slot changes that slot and nothing else; an index outside panics and changes nothing. *)
Theorem C88_write : forall (EN : Env) (T : Type) (EL : Elem T) v (w : world T) xs i x,
  0 < t_size -> reached v w xs ->
  (vcap v - llen xs <= i -> vec_spare_write i x (v, w) = (Panic PIndex, (v, w))) /\
  (i < vcap v - llen xs -> exists sp w', vec_spare (v, w) = (Ret sp, (v, w)) /\
     vec_spare_write i x (v, w) = (Ret tt, (v, w')) /\
     vec_spare (v, w') = (Ret (<[N.to_nat i := Some x]> sp), (v, w')) /\
     vec_as_slice v w' = (Ret xs, w') /\ delete_ptr (vdata v) (heap w') = delete_ptr (vdata v) (heap w) /\
     events w' = events w /\ drops w' = drops w).
Proof. exact p_C88_write. Qed.
Print Assumptions C88_write.

Example C88_write_ex :
  exists v w, @reached env_debug N num v w [1; 2] /\ @vcap N num v = 3 /\
    fst (@vec_spare_write env_debug N num 0 9 (v, w)) = Ret tt /\
    fst (@vec_spare_write env_debug N num 1 9 (v, w)) = Panic PIndex.
Proof. exact x_C88_write_ex. Qed.

(** Filling spare slots and declaring them with [set_len] appends the values, without any request to the
    allocator; afterwards the vector behaves as a list again. *)
Theorem C88_fill : forall (EN : Env) (T : Type) (EL : Elem T) v (w : world T) xs ys,
  0 < t_size -> no_drop_panic -> reached v w xs -> llen xs + llen ys <= vcap v ->
  exists v' w', vec_fill_spare ys (v, w) = (Ret tt, (v', w')) /\
    vec_as_slice v' w' = (Ret (xs ++ ys), w') /\ v_len v' = llen xs + llen ys /\ v_ptr v' = v_ptr v /\
    delete_ptr (vdata v') (heap w') = delete_ptr (vdata v) (heap w) /\ events w' = events w /\ drops w' = drops w /\
    (exists w2, vec_drop_val v' w' = (Ret tt, w2) /\ heap w2 = delete_ptr (vdata v) (heap w) /\
       drops w2 = drops w ++ xs ++ ys) /\
    forall ops, Forall (calm_vec e_strict) ops ->
      N.max (2 * (vcap v + total_demand ops)) 8 * t_size <= isize_max + 1 - t_align ->
      exists outs v2 w2 ins zs ds, vrun ops (v', w') = (outs, (v2, w2)) /\
        vtrace refuses t_clone (xs ++ ys) ops ins outs zs ds /\ vec_as_slice v2 w2 = (Ret zs, w2).
Proof. exact p_C88_fill. Qed.
Print Assumptions C88_fill.

Example C88_fill_ex :
  exists v w, @reached env_debug N num v w [1; 2] /\ llen [1; 2] + llen [9] <= @vcap N num v /\
    fst (@vec_fill_spare env_debug N num [9] (v, w)) = Ret tt.
Proof. exact x_C88_fill_ex. Qed.

(** The spare capacity of a [SmallVec], inline or on the heap: as many slots as capacity is left; writing one of them
    changes that slot and nothing else. *)
Theorem C89_small_spare : forall (EN : Env) (T : Type) (EL : Elem T) (Cap : N) s (w : world T) xs,
  0 < t_size -> sreached Cap s w xs ->
  exists sp, sv_spare Cap (s, w) = (Ret sp, (s, w)) /\ llen sp = sv_capacity Cap s - llen xs /\ llen xs <= sv_capacity Cap s /\
    sv_spare_len Cap s (s, w) = (Ret (llen sp), (s, w)) /\
    (forall i x, i < llen sp -> exists s' w', sv_spare_write Cap i x (s, w) = (Ret tt, (s', w')) /\
       sv_spare Cap (s', w') = (Ret (<[N.to_nat i := Some x]> sp), (s', w')) /\
       sv_slice s' w' = (Ret xs, w') /\ sv_marker s' = sv_marker s /\ sv_capacity Cap s' = sv_capacity Cap s /\
       srest s' w' = srest s w /\ events w' = events w /\ drops w' = drops w) /\
    (forall i x, llen sp <= i -> sv_spare_write Cap i x (s, w) = (Panic PIndex, (s, w))).
Proof. exact p_C89_small_spare. Qed.
Print Assumptions C89_small_spare.

Example C89_small_spare_ex :
  @sreached env_debug N num_drop 4 (fst (sin env_debug num_drop)) (snd (sin env_debug num_drop)) [1; 2; 3] /\
  fst (@sv_spare env_debug N num_drop 4 (sin env_debug num_drop)) = Ret [None].
Proof. exact x_C89_small_spare_ex. Qed.
