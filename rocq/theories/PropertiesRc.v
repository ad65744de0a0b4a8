(** Properties C49-C54: Rc and Weak. *)
From Verif Require Import RcFacts RcWrap.

(** Every history follows the specification (in which the counts are the numbers of live handles)
    to its end or up to a call that takes the last [Rc] from a value with [Weak]s. *)
Theorem C49_counts_partial : forall (EN : Env) (T : Type) (EL : Elem T) (w0 : world (rcbox T)) ops,
  (forall b, next_id w0 <= b -> heap w0 !! b = None) -> llen ops + 2 <= usize_max ->
  exists ops1 ops2 refs outs st s, ops = ops1 ++ ops2 /\
    rtrace t_clone (RcSpec [] []) ops1 refs outs st /\
    rrun ops1 ([], ([], w0)) = (outs, s) /\
    (ops2 = [] \/ exists op rest, ops2 = op :: rest /\ orphans st op) /\
    Forall (fun r => r = None \/ r = Some PUnwrap \/ r = Some PNoEnv) refs /\
    ((forall n k, e_aok n k = true) -> is_Some (cur_scope w0) -> Forall (eq None) refs).
Proof. exact p_C49_counts_partial. Qed.
Print Assumptions C49_counts_partial.

Example C49_counts_partial_ex :
  (llen ops_rc + 2 <=? usize_max) = true /\
  fst (rdemo env_debug (ops_rc ++ [RCounts 0; RWCounts 2; RCounts 3])) =
    replicate 5 (Ret RDone) ++ [Ret (RBool true)] ++ replicate 3 (Ret RDone) ++
    [Ret (RNums 2 1); Ret (RNums 2 1); Ret (RNums 1 0)].
Proof. exact x_C49_counts_partial_ex. Qed.

(** The counts a live [Rc] or [Weak] reports after any history: the weak count is always the number
    of [Weak]s; the strong count is the number of [Rc]s, or one more, until the value was moved out
    (then it cannot be read any more). *)
Theorem C49_counts_bounds_partial : forall (EN : Env) (T : Type) (EL : Elem T) w0 ops tab d
    (w : world (rcbox T)) i h q,
  rc_reached w0 ops tab d w -> tab !! i = Some h -> target h = Some q ->
  exists n, fst (rexec (match h with Some (HRc _) => RCounts i | _ => RWCounts i end) (tab, (d, w)))
      = Ret (RNums n (live_weaks q tab)) /\
    ((n = live_rcs q tab /\ 1 <= n) \/ n = live_rcs q tab + 1 \/
     (forall j, (exists p, tab !! j = Some (Some (HRc p)) /\ sp_ptr p = q) ->
        reads j (tab, (d, w)) = UB UseAfterMove)).
Proof. exact p_C49_counts_bounds_partial. Qed.
Print Assumptions C49_counts_bounds_partial.

Example C49_counts_bounds_ex :
  @rc_reached env_debug N num_drop wr_start ops_back (rtab env_debug ops_back)
    (rdrops env_debug ops_back) (rworld env_debug ops_back) /\
  live_weaks (Blk 0) (rtab env_debug ops_back) = 1.
Proof. exact x_C49_counts_bounds_ex. Qed.

(** After the last [Rc] was dropped and the [Weak] upgraded, one [Rc] reports two. *)
Theorem C49_counts_refuted :
  exists tab d w, @rc_reached env_debug N num_drop wr_start ops_back tab d w /\
    live_rcs (Blk 0) tab = 1 /\ target <$> (tab !! 2%nat) = Some (Some (Blk 0)) /\
    fst (@rexec env_debug N num_drop (RCounts 2) (tab, (d, w))) = Ret (RNums 2 1).
Proof. exact p_C49_counts_refuted. Qed.
Print Assumptions C49_counts_refuted.

(** No history of [Rc]s and [Weak]s runs a destructor, frees a block or calls the allocator for
    anything but a new block. *)
Theorem C50_never_released_refuted : forall (EN : Env) (T : Type) (EL : Elem T) w0 ops tab d
    (w : world (rcbox T)),
  rc_reached w0 ops tab d w ->
  d = [] /\ (forall b, is_Some (heap w0 !! b) -> is_Some (heap w !! b)) /\
  (forall b, next_id w0 <= b -> b < next_id w -> is_Some (heap w !! b)) /\
  exists l, events w = events w0 ++ l /\
    Forall (fun e => match e with EvDealloc _ _ _ | EvRealloc _ _ _ _ _ => False | _ => True end) l.
Proof. exact p_C50_never_released_refuted. Qed.
Print Assumptions C50_never_released_refuted.

Example C50_never_released_ex :
  @rc_reached env_debug N num_drop wr_start ops_rc (rtab env_debug ops_rc) (rdrops env_debug ops_rc)
    (rworld env_debug ops_rc).
Proof. exact x_C50_never_released_ex. Qed.

(** The only handle of a value with a destructor is dropped: the destructor does not run and the
    block stays. *)
Theorem C50_released_refuted :
  exists tab d w, @rc_reached env_debug N num_drop wr_start [RNew 5; RDrop 0] tab d w /\
    tab = [None] /\ d = [] /\ is_Some (heap w !! 0).
Proof. exact p_C50_released_refuted. Qed.
Print Assumptions C50_released_refuted.

(** What is left of the property: as long as a handle exists, its box is allocated, and no
    destructor runs twice. *)
Theorem C50_kept_partial : forall (EN : Env) (T : Type) (EL : Elem T) w0 ops tab d
    (w : world (rcbox T)) i h q,
  rc_reached w0 ops tab d w -> tab !! i = Some h -> target h = Some q ->
  exists b blk rb, q = Blk b /\ heap w !! b = Some blk /\ b_slots blk = [Some rb] /\ next_id w0 <= b /\ d = [].
Proof. exact p_C50_kept_partial. Qed.
Print Assumptions C50_kept_partial.

Example C50_kept_ex :
  @rc_reached env_debug N num_drop wr_start ops_rc (rtab env_debug ops_rc) (rdrops env_debug ops_rc)
    (rworld env_debug ops_rc) /\ target <$> (rtab env_debug ops_rc !! 3%nat) = Some (Some (Blk 1)).
Proof. exact x_C50_kept_ex. Qed.

(** While an [Rc] is alive and its value was not moved out, upgrading succeeds, after any history.
    (It succeeds without a live [Rc] too.) *)
Theorem C51_upgrade_partial : forall (EN : Env) (T : Type) (EL : Elem T) w0 ops tab d
    (w : world (rcbox T)) i p b n k x,
  rc_reached w0 ops tab d w -> tab !! i = Some (Some (HWeak (Some p))) -> sp_ptr p = Blk b ->
  (exists blk, heap w !! b = Some blk /\ b_slots blk = [Some (RcBox n k (Val x))]) ->
  exists w', rexec (RWUpgrade i) (tab, (d, w)) = (Ret (RBool true), (tab ++ [Some (HRc p)], (d, w'))) /\
    reads (length tab) (tab ++ [Some (HRc p)], (d, w')) = Ret (RGot x).
Proof. exact p_C51_upgrade_partial. Qed.
Print Assumptions C51_upgrade_partial.

Example C51_upgrade_ex :
  @rc_reached env_debug N num_drop wr_start ops_rc (rtab env_debug ops_rc) (rdrops env_debug ops_rc)
    (rworld env_debug ops_rc) /\ target <$> (rtab env_debug ops_rc !! 2%nat) = Some (Some (Blk 0)) /\
  fst (rdemo env_debug (ops_rc ++ [RWUpgrade 2; RWUpgrade 6])) =
    fst (rdemo env_debug ops_rc) ++ [Ret (RBool true); Ret (RBool false)].
Proof. exact x_C51_upgrade_ex. Qed.

(** In a history that orphans no value, upgrading succeeds exactly while an [Rc] is alive. *)
Theorem C51_upgrade_exact_partial : forall (EN : Env) (T : Type) (EL : Elem T) w0 ops st tab d
    (w : world (rcbox T)) i o,
  rc_follows w0 ops st tab d w -> s_tab st !! i = Some (Some (SWeak o)) ->
  exists s, rexec (RWUpgrade i) (tab, (d, w)) =
    (Ret (RBool (match o with Some c => negb (strong_of st c =? 0) | None => false end)), s).
Proof. exact p_C51_upgrade_exact_partial. Qed.
Print Assumptions C51_upgrade_exact_partial.

Example C51_upgrade_exact_ex :
  @rc_follows env_debug N num_drop wr_start ops_rc st_rc (rtab env_debug ops_rc)
    (rdrops env_debug ops_rc) (rworld env_debug ops_rc) /\ s_tab st_rc !! 2%nat = Some (Some (SWeak (Some 0%nat))).
Proof. exact x_C51_upgrade_exact_ex. Qed.

Theorem C51_upgrade_refuted :
  exists tab d w, @rc_reached env_debug N num_drop wr_start ops_orphan tab d w /\
    live_rcs (Blk 0) tab = 0 /\ target <$> (tab !! 1%nat) = Some (Some (Blk 0)) /\
    fst (@rexec env_debug N num_drop (RWUpgrade 1) (tab, (d, w))) = Ret (RBool true).
Proof. exact p_C51_upgrade_refuted. Qed.
Print Assumptions C51_upgrade_refuted.

Theorem C51_dead_partial : forall (EN : Env) (T : Type) (EL : Elem T) tab d
    (w : world (rcbox T)) i p k,
  tab !! i = Some (Some (HWeak (Some p))) ->
  fst (rexec (RWCounts i) (tab, (d, w))) = Ret (RNums 0 k) ->
  rexec (RWUpgrade i) (tab, (d, w)) = (Ret (RBool false), (tab, (d, w))).
Proof. exact p_C51_dead_partial. Qed.
Print Assumptions C51_dead_partial.

(** Such a box is left behind by [make_mut] of the only [Rc] with a [Weak] in debug builds. *)
Example C51_dead_ex :
  exists tab d w p, @rc_reached env_debug N num_drop wr_start [RNew 5; RDowngrade 0; RMakeMut 0 6] tab d w /\
    tab !! 1%nat = Some (Some (HWeak (Some p))) /\
    fst (@rexec env_debug N num_drop (RWCounts 1) (tab, (d, w))) = Ret (RNums 0 1).
Proof. exact x_C51_dead_ex. Qed.

(** * C52 *)

Theorem C52_get_mut_exclusive : forall (EN : Env) (T : Type) (EL : Elem T) w0 ops tab d
    (w : world (rcbox T)) i y x s,
  rc_reached w0 ops tab d w -> rexec (RGetMut i y) (tab, (d, w)) = (Ret (RMaybe (Some x)), s) ->
  exists p, tab !! i = Some (Some (HRc p)) /\
    (forall j h, tab !! j = Some h -> target h = Some (sp_ptr p) -> j = i) /\
    fst s = tab /\ reads i (tab, (d, w)) = Ret (RGot x) /\ reads i s = Ret (RGot y) /\
    (forall j, j <> i -> reads j s = reads j (tab, (d, w))) /\
    (forall b, sp_ptr p <> Blk b -> heap (snd (snd s)) !! b = heap w !! b).
Proof. exact p_C52_get_mut_exclusive. Qed.
Print Assumptions C52_get_mut_exclusive.

Example C52_get_mut_exclusive_ex :
  @rc_reached env_debug N num_drop wr_start ops_rc (rtab env_debug ops_rc) (rdrops env_debug ops_rc)
    (rworld env_debug ops_rc) /\
  fst (@rexec env_debug N num_drop (RGetMut 3 9) (snd (rdemo env_debug ops_rc))) = Ret (RMaybe (Some 8)) /\
  fst (@rexec env_debug N num_drop (RGetMut 0 9) (snd (rdemo env_debug ops_rc))) = Ret (RMaybe None).
Proof. exact x_C52_get_mut_exclusive_ex. Qed.

(** In a history that orphans no value: the result is the value itself (only handle) or its clone;
    it is what this handle shows after the write, and no other handle changes. *)
Theorem C53_make_mut_partial : forall (EN : Env) (T : Type) (EL : Elem T) w0 ops st tab d
    (w : world (rcbox T)) i c x x' y,
  rc_follows w0 ops st tab d w -> s_tab st !! i = Some (Some (SRc c)) -> s_cells st !! c = Some (Some x) ->
  (strong_of st c = 1 -> weak_of st c = 0) -> t_clone x = Some x' ->
  (forall n k, e_aok n k = true) -> is_Some (cur_scope w0) ->
  exists s, rexec (RMakeMut i y) (tab, (d, w)) =
      (Ret (RGot (if strong_of st c =? 1 then x else x')), s) /\
    reads i s = Ret (RGot y) /\ (forall j, j <> i -> reads j s = reads j (tab, (d, w))) /\
    length (fst s) = length tab /\ fst (snd s) = [].
Proof. exact p_C53_make_mut_partial. Qed.
Print Assumptions C53_make_mut_partial.

Example C53_make_mut_ex :
  @rc_follows env_debug N num_drop wr_start ops_rc st_rc (rtab env_debug ops_rc)
    (rdrops env_debug ops_rc) (rworld env_debug ops_rc) /\
  strong_of st_rc 0 = 2 /\ strong_of st_rc 1 = 1 /\ weak_of st_rc 1 = 0 /\
  fst (rdemo env_debug (ops_rc ++ [RMakeMut 0 6; RRead 0; RRead 5; RMakeMut 3 7; RRead 3])) =
    fst (rdemo env_debug ops_rc) ++
    [Ret (RGot 5); Ret (RGot 6); Ret (RGot 5); Ret (RGot 8); Ret (RGot 7)].
Proof. exact x_C53_make_mut_ex. Qed.

(** The only [Rc] of a value with a [Weak]: [make_mut] panics in a debug build; in a release build
    the [Weak] can still be upgraded, to a value that is not there. *)
Theorem C53_make_mut_refuted :
  (exists s, @rexec env_debug N num_drop (RMakeMut 0 6) (snd (rdemo env_debug [RNew 5; RDowngrade 0]))
     = (Panic PArith, s)) /\
  (exists tab d w, @rc_reached env_release N num_drop wr_start
       [RNew 5; RDowngrade 0; RMakeMut 0 6; RWUpgrade 1] tab d w /\
     target <$> (tab !! 2%nat) = Some (Some (Blk 0)) /\
     @reads env_release N num_drop 0 (tab, (d, w)) = Ret (RGot 6) /\ @reads env_release N num_drop 2 (tab, (d, w)) = UB UseAfterMove).
Proof. exact p_C53_make_mut_refuted. Qed.
Print Assumptions C53_make_mut_refuted.

(** [try_unwrap] gives the value only when no other [Rc] exists; otherwise nothing changes. *)
Theorem C54_try_unwrap_partial : forall (EN : Env) (T : Type) (EL : Elem T) w0 ops tab d
    (w : world (rcbox T)) i p,
  rc_reached w0 ops tab d w -> tab !! i = Some (Some (HRc p)) ->
  (exists x s, rexec (RTryUnwrap i) (tab, (d, w)) = (Ret (RMaybe (Some x)), s) /\
     reads i (tab, (d, w)) = Ret (RGot x) /\ live_rcs (sp_ptr p) tab = 1 /\
     fst s = <[i := None]> tab /\
     (forall j, j <> i -> reads j s = reads j (tab, (d, w)))) \/
  rexec (RTryUnwrap i) (tab, (d, w)) = (Ret (RMaybe None), (tab, (d, w))) \/
  (exists s, rexec (RTryUnwrap i) (tab, (d, w)) = (UB UseAfterMove, s) /\
     reads i (tab, (d, w)) = UB UseAfterMove).
Proof. exact p_C54_try_unwrap_partial. Qed.
Print Assumptions C54_try_unwrap_partial.

Example C54_try_unwrap_ex :
  @rc_reached env_debug N num_drop wr_start ops_rc (rtab env_debug ops_rc) (rdrops env_debug ops_rc)
    (rworld env_debug ops_rc) /\
  fst (@rexec env_debug N num_drop (RTryUnwrap 3) (snd (rdemo env_debug ops_rc))) = Ret (RMaybe (Some 8)) /\
  fst (@rexec env_debug N num_drop (RTryUnwrap 0) (snd (rdemo env_debug ops_rc))) = Ret (RMaybe None).
Proof. exact x_C54_try_unwrap_ex. Qed.

(** In a history that orphans no value, it gives the value whenever no other [Rc] exists, and no
    handle to the value is left. *)
Theorem C54_try_unwrap_exact_partial : forall (EN : Env) (T : Type) (EL : Elem T) w0 ops st tab d
    (w : world (rcbox T)) i c x p,
  rc_follows w0 ops st tab d w -> s_tab st !! i = Some (Some (SRc c)) -> s_cells st !! c = Some (Some x) ->
  tab !! i = Some (Some (HRc p)) ->
  (strong_of st c = 1 -> weak_of st c = 0 -> exists s,
     rexec (RTryUnwrap i) (tab, (d, w)) = (Ret (RMaybe (Some x)), s) /\
     (forall j h, fst s !! j = Some h -> target h <> Some (sp_ptr p))) /\
  (strong_of st c <> 1 -> rexec (RTryUnwrap i) (tab, (d, w)) = (Ret (RMaybe None), (tab, (d, w)))).
Proof. exact p_C54_try_unwrap_exact_partial. Qed.
Print Assumptions C54_try_unwrap_exact_partial.

Example C54_try_unwrap_exact_ex :
  @rc_follows env_debug N num_drop wr_start ops_rc st_rc (rtab env_debug ops_rc)
    (rdrops env_debug ops_rc) (rworld env_debug ops_rc) /\
  s_tab st_rc !! 3%nat = Some (Some (SRc 1)) /\ strong_of st_rc 1 = 1 /\ weak_of st_rc 1 = 0.
Proof. exact x_C54_try_unwrap_exact_ex. Qed.

(** With a [Weak]: it can be upgraded afterwards and shows a value that is not there.  And a value
    that was orphaned and upgraded again is not given out although it has one [Rc]. *)
Theorem C54_try_unwrap_refuted :
  (exists tab d w, @rc_reached env_debug N num_drop wr_start
       [RNew 5; RDowngrade 0; RTryUnwrap 0; RWUpgrade 1] tab d w /\
     target <$> (tab !! 2%nat) = Some (Some (Blk 0)) /\ @reads env_debug N num_drop 2 (tab, (d, w)) = UB UseAfterMove) /\
  (exists tab d w, @rc_reached env_debug N num_drop wr_start ops_back tab d w /\
     live_rcs (Blk 0) tab = 1 /\ target <$> (tab !! 2%nat) = Some (Some (Blk 0)) /\
     fst (@rexec env_debug N num_drop (RTryUnwrap 2) (tab, (d, w))) = Ret (RMaybe None)) /\
  (exists tab d w, @rc_reached env_debug N num_drop wr_start [RNew 5; RTryUnwrap 0] tab d w /\
     tab = [None] /\ is_Some (heap w !! 0)).
Proof. exact p_C54_try_unwrap_refuted. Qed.
Print Assumptions C54_try_unwrap_refuted.

(** A count at its greatest value: in builds with overflow checks the call that would increase it panics and
    nothing has changed, in every state. *)
Theorem C49_overflow_partial : forall (EN : Env) (T : Type) (EL : Elem T) tab d (w : world (rcbox T)) i n k,
  e_checks = true ->
  (fst (rexec (RCounts i) (tab, (d, w))) = Ret (RNums n k) ->
    (n = usize_max -> rexec (RClone i) (tab, (d, w)) = (Panic PArith, (tab, (d, w)))) /\
    (k = usize_max -> rexec (RDowngrade i) (tab, (d, w)) = (Panic PArith, (tab, (d, w))))) /\
  (fst (rexec (RWCounts i) (tab, (d, w))) = Ret (RNums n k) ->
    (n = usize_max -> rexec (RWUpgrade i) (tab, (d, w)) = (Panic PArith, (tab, (d, w)))) /\
    (k = usize_max -> rexec (RWClone i) (tab, (d, w)) = (Panic PArith, (tab, (d, w))))).
Proof. exact p_C49_overflow_partial. Qed.
Print Assumptions C49_overflow_partial.

(** An [Rc] and a [Weak] whose counters are at the end. *)
Example C49_overflow_ex :
  let tab := rtab env_debug [RNew 5; RDowngrade 0] in
  let w := set_slots (Blk 0) [Some (RcBox usize_max usize_max (Val 5))] (rworld env_debug [RNew 5; RDowngrade 0]) in
  @e_checks (@e_profile env_debug) = true /\
  fst (@rexec env_debug N num_drop (RCounts 0) (tab, ([], w))) = Ret (RNums usize_max usize_max) /\
  fst (@rexec env_debug N num_drop (RWCounts 1) (tab, ([], w))) = Ret (RNums usize_max usize_max) /\
  fst (@rexec env_debug N num_drop (RWUpgrade 1) (tab, ([], w))) = Panic PArith.
Proof. exact x_C49_overflow_ex. Qed.

(** In the other builds the call returns a new handle and the count is zero. *)
Theorem C49_zero_refuted : forall (EN : Env) (T : Type) (EL : Elem T) tab d (w : world (rcbox T)) i n k,
  e_checks = false ->
  (fst (rexec (RCounts i) (tab, (d, w))) = Ret (RNums n k) ->
    (n = usize_max -> exists h s, rexec (RClone i) (tab, (d, w)) = (Ret RDone, (tab ++ [Some (HRc h)], s)) /\
       fst (rexec (RCounts i) (tab, s)) = Ret (RNums 0 k)) /\
    (k = usize_max -> exists h s, rexec (RDowngrade i) (tab, (d, w)) = (Ret RDone, (tab ++ [Some (HWeak h)], s)) /\
       fst (rexec (RCounts i) (tab, s)) = Ret (RNums n 0))) /\
  (fst (rexec (RWCounts i) (tab, (d, w))) = Ret (RNums n k) ->
    (n = usize_max -> exists h s, rexec (RWUpgrade i) (tab, (d, w)) = (Ret (RBool true), (tab ++ [Some (HRc h)], s)) /\
       fst (rexec (RWCounts i) (tab, s)) = Ret (RNums 0 k)) /\
    (k = usize_max -> exists h s, rexec (RWClone i) (tab, (d, w)) = (Ret RDone, (tab ++ [Some (HWeak h)], s)) /\
       fst (rexec (RWCounts i) (tab, s)) = Ret (RNums n 0))).
Proof. exact p_C49_zero_refuted. Qed.
Print Assumptions C49_zero_refuted.

(** An [Rc] and a [Weak] whose counters are at the end. *)
Example C49_zero_ex :
  let tab := rtab env_release [RNew 5; RDowngrade 0] in
  let w := set_slots (Blk 0) [Some (RcBox usize_max usize_max (Val 5))] (rworld env_release [RNew 5; RDowngrade 0]) in
  @e_checks (@e_profile env_release) = false /\
  fst (@rexec env_release N num_drop (RCounts 0) (tab, ([], w))) = Ret (RNums usize_max usize_max) /\
  fst (@rexec env_release N num_drop (RWCounts 1) (tab, ([], w))) = Ret (RNums usize_max usize_max) /\
  fst (@rrun env_release N num_drop [RClone 0; RWCounts 1; RWUpgrade 1] (tab, ([], w))) =
    [Ret RDone; Ret (RNums 0 usize_max); Ret (RBool false)].
Proof. exact x_C49_zero_ex. Qed.
