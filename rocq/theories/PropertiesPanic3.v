(** Property C112: the remaining conversions with panicking destructors. *)
From Verif Require Import PanicFacts3.

(** [SmallVec::from] of an array that does not fit inline (the others are lost, C37). *)
Theorem C112_small_from_array : forall (EN : Env) (T : Type) (EL : Elem T) (Cap : N) (w : world T) l,
  0 < t_size -> wok w -> llen l * t_size <= isize_max + 1 - t_align -> Cap < llen l ->
  let panics x := t_needs_drop && t_drop_panics x in
  exists r w', sv_from_array Cap l w = (r, w') /\
    ((exists s, r = Ret s /\ sv_slice s w' = (Ret l, w') /\ srest s w' = heap w /\ drops w' = drops w) \/
     (r = settle panics (Panic PUnwrap) l /\ refuses /\
        (r <> Abort -> heap w' = heap w /\ drops w' = drops w ++ l))).
Proof. exact p_C112_small_from_array. Qed.
Print Assumptions C112_small_from_array.

(** [into_boxed_slice] of a vector with elements. *)
Theorem C112_into_boxed_slice : forall (EN : Env) (T : Type) (EL : Elem T) v (w : world T) xs,
  0 < t_size -> reached v w xs -> xs <> [] ->
  let panics x := t_needs_drop && t_drop_panics x in
  exists r w', vec_into_boxed_slice v w = (r, w') /\
    ((exists b, r = Ret b /\ vec_as_slice (vec_from_box b) w' = (Ret xs, w') /\ drops w' = drops w /\
        delete_ptr (sp_ptr b) (heap w') = delete_ptr (vdata v) (heap w)) \/
     (r = settle panics (Panic PUnwrap) xs /\ refuses /\
        (r <> Abort -> heap w' = delete_ptr (vdata v) (heap w) /\ drops w' = drops w ++ xs))).
Proof. exact p_C112_into_boxed_slice. Qed.
Print Assumptions C112_into_boxed_slice.

(** [SmallVec::into_vec], from inline or heap. *)
Theorem C112_small_into_vec : forall (EN : Env) (T : Type) (EL : Elem T) (Cap : N) s (w : world T) xs,
  0 < t_size -> sreached Cap s w xs -> N.max (llen xs) 8 * t_size <= isize_max + 1 - t_align ->
  let panics x := t_needs_drop && t_drop_panics x in
  exists r w', sv_into_vec s w = (r, w') /\
    ((exists v, r = Ret v /\ vec_as_slice v w' = (Ret xs, w') /\ drops w' = drops w /\
        delete_ptr (vdata v) (heap w') = srest s w) \/
     (r = settle panics (Panic PUnwrap) xs /\ refuses /\
        (r <> Abort -> heap w' = srest s w /\ drops w' = drops w ++ xs))).
Proof. exact p_C112_small_into_vec. Qed.
Print Assumptions C112_small_into_vec.

(** [SmallVec::into_boxed_slice] of a vector with elements: both steps may be refused. *)
Theorem C112_small_into_boxed_slice : forall (EN : Env) (T : Type) (EL : Elem T) (Cap : N) s (w : world T) xs,
  0 < t_size -> sreached Cap s w xs -> xs <> [] -> N.max (llen xs) 8 * t_size <= isize_max + 1 - t_align ->
  let panics x := t_needs_drop && t_drop_panics x in
  exists r w', sv_into_boxed_slice s w = (r, w') /\
    ((exists b, r = Ret b /\ vec_as_slice (vec_from_box b) w' = (Ret xs, w') /\ drops w' = drops w /\
        delete_ptr (sp_ptr b) (heap w') = srest s w) \/
     (r = settle panics (Panic PUnwrap) xs /\ refuses /\
        (r <> Abort -> heap w' = srest s w /\ drops w' = drops w ++ xs))).
Proof. exact p_C112_small_into_boxed_slice. Qed.
Print Assumptions C112_small_into_boxed_slice.

(** A refused request while an element whose destructor panics is inside ends the process; without
    such an element it is an ordinary panic. *)
Example C112_into_ex :
  let st := @sdemo (env_refusing 0) N num_bomb 4 w_start (SPush <$> bombs) in
  let ok := @sdemo (env_refusing 0) N num_bomb 4 w_start [SPush 5] in
  @sreached (env_refusing 0) N num_bomb 4 (fst st) (snd st) bombs /\
  fst (@sv_into_vec (env_refusing 0) N num_bomb (fst st) (snd st)) = Abort /\
  @sreached (env_refusing 0) N num_bomb 4 (fst ok) (snd ok) [5] /\
  fst (@sv_into_vec (env_refusing 0) N num_bomb (fst ok) (snd ok)) = Panic PUnwrap /\
  fst (@sv_from_array (env_refusing 0) N num_bomb 1 [5; 13] w_start) = Abort /\
  fst (@sv_from_array (env_refusing 0) N num_bomb 1 [5; 6] w_start) = Panic PUnwrap /\
  @reached env_debug N num_bomb (fst bomb_st) (snd bomb_st) bombs /\
  exists b w', @vec_into_boxed_slice env_debug N num_bomb (fst bomb_st) (snd bomb_st) = (Ret b, w') /\
    sp_len b = llen bombs.
Proof. exact x_C112_into_ex. Qed.
