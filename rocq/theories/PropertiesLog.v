(** Property C107: the allocator log of SmallVec and String. *)
From Verif Require Import LogFacts.

(** A [SmallVec] with any history, then dropped: the allocator log is one a monitor accepts (every
    release and resize names a live block, the allocator it came from and its layout).  No restriction
    on arguments, sizes, scopes or destructors. *)
Theorem C107_small_log : forall (EN : Env) (T : Type) (EL : Elem T) (Cap : N) (w : world T) ops outs s w1 r2 w2,
  fresh_ids w -> srun Cap ops (sv_new Cap, w) = (outs, (s, w1)) -> sv_drop_val s w1 = (r2, w2) ->
  (exists evs, events w1 = events w ++ evs /\ replay (live_blocks w) evs = Some (live_blocks w1)) /\
  (exists evs, events w2 = events w ++ evs /\ replay (live_blocks w) evs = Some (live_blocks w2)).
Proof. exact p_C107_small_log. Qed.
Print Assumptions C107_small_log.

(** When no call is undefined and destructors do not panic, the log of the whole life of the vector
    leaves exactly the blocks that were live before it: all memory went back. *)
Theorem C107_small_balanced : forall (EN : Env) (T : Type) (EL : Elem T) (Cap : N) (w : world T) ops outs s w1,
  0 < t_size -> no_drop_panic -> wok w -> Cap * t_size <= isize_max + 1 - t_align ->
  (total_sdemand ops + 8) * t_size <= isize_max + 1 - t_align ->
  srun Cap ops (sv_new Cap, w) = (outs, (s, w1)) -> Forall (fun o => defined o.2) outs ->
  exists w2 evs, sv_drop_val s w1 = (Ret tt, w2) /\ events w2 = events w ++ evs /\
    replay (live_blocks w) evs = Some (live_blocks w).
Proof. exact p_C107_small_balanced. Qed.
Print Assumptions C107_small_balanced.

(** The same for strings, however they were made. *)
Theorem C107_string_log : forall (EN : Env) (w : world N) v0 w0 ops outs v w1 r2 w2,
  fresh_ids w ->
  (str_new w = (Ret v0, w0) \/
   (exists n, str_with_capacity n w = (Ret v0, w0)) \/
   (exists us, str_from_utf16 us w = (Ret (Some v0), w0)) \/
   (exists b0 wa vops vouts b wb, vec_new w = (Ret b0, wa) /\ vrun vops (b0, wa) = (vouts, (b, wb)) /\
      str_from_utf8 b wb = (Ret (Some v0), w0))) ->
  trun ops (v0, w0) = (outs, (v, w1)) -> vec_drop_val v w1 = (r2, w2) ->
  (exists evs, events w1 = events w ++ evs /\ replay (live_blocks w) evs = Some (live_blocks w1)) /\
  (exists evs, events w2 = events w ++ evs /\ replay (live_blocks w) evs = Some (live_blocks w2)).
Proof. exact p_C107_string_log. Qed.
Print Assumptions C107_string_log.

(** A string made by [new] and used by calls none of which is undefined or goes through
    [as_mut_vec]: dropping it leaves exactly the blocks that were live before. *)
Theorem C107_string_balanced : forall (EN : Env) (w : world N) v0 w0 ops outs v w1,
  wok w -> str_new w = (Ret v0, w0) -> N.max (2 * (vcap v0 + total_tdemand ops)) 8 <= isize_max ->
  Forall args_ok ops -> Forall not_mut ops -> trun ops (v0, w0) = (outs, (v, w1)) -> Forall defined outs ->
  exists w2 evs, vec_drop_val v w1 = (Ret tt, w2) /\ events w2 = events w ++ evs /\
    replay (live_blocks w) evs = Some (live_blocks w).
Proof. exact p_C107_string_balanced. Qed.
Print Assumptions C107_string_balanced.

Example C107_small_ex :
  let ops := [SPush 1; SPush 2; SMoveToHeap; SSetScope 9; SPush 3; SPush 4; SReserve 9; SPush 5; SSetScope 7; SPop] in
  let st := @sdemo env_debug N num_drop 4 w_start ops in
  wok w_start /\ fresh_ids w_start /\ @no_drop_panic N num_drop /\
  forallb definedb (snd <$> @sdemo_outs env_debug N num_drop 4 w_start ops) = true /\
  events (snd (@sv_drop_val N num_drop (fst st) (snd st))) =
    [EvSelect 7 (Selector MNone 2); EvAlloc 7 (Layout 32 8) (Some 1);
     EvRealloc 7 1 (Layout 32 8) 104 (Some 2); EvDealloc 7 2 (Layout 104 8)].
Proof. exact x_C107_small_ex. Qed.

Example C107_string_ex :
  let ops := [TPushStr [97; 233]; TReserve 20; TShrinkToFit; TInsertStr 1 [8364]; TSetScope 9; TSplitOff 1] in
  let st := @tdemo env_debug w_start ops in
  wok w_start /\ fresh_ids w_start /\ Forall args_ok ops /\ Forall not_mut ops /\
  forallb definedb (@tdemo_outs env_debug w_start ops) = true /\
  events (snd (vec_drop_val (fst st) (snd st))) =
    [EvSelect 7 (Selector MNone 8); EvSelect 7 (Selector MNone 8); EvAlloc 7 (Layout 3 1) (Some 1);
     EvRealloc 7 1 (Layout 3 1) 23 (Some 2); EvRealloc 7 2 (Layout 23 1) 3 (Some 3);
     EvRealloc 7 3 (Layout 3 1) 8 (Some 4); EvSelect 9 (Selector MNone 8);
     EvAlloc 9 (Layout 5 1) (Some 5); EvDealloc 9 5 (Layout 5 1); EvDealloc 7 4 (Layout 8 1)].
Proof. exact x_C107_string_ex. Qed.
