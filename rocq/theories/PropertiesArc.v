(** Properties C55-C62: Arc. *)
From Verif Require Import ArcFacts ArcWrap.

Theorem C55_safe_partial : forall (PR : Profile) (T : Type) (x : T) ls c,
  arc_reached x ls c -> happened is_lost c = 0 ->
  happened is_bad c = 0 /\ happened is_destroy c + happened is_out c <= 1 /\ happened is_free c <= 1.
Proof. exact p_C55_safe_partial. Qed.
Print Assumptions C55_safe_partial.

Example C55_safe_ex : forall (PR : Profile), exists c,
  arc_reached 5 s_two c /\ happened is_lost c = 0 /\
  a_log c = [ACloneOk; ARead 5; ARead 5; ADestroy; AFree] /\ all_gone c.
Proof. exact x_C55_safe_ex. Qed.

(** A [Weak] exists and the allocator refuses the new block of [make_mut]: the panic leaves a handle
    whose value was moved out, and reading through it touches it. *)
Theorem C55_safe_refuted : forall (PR : Profile), exists c,
  arc_reached 5 (s_lost ++ [LBeginS 0 CRead; LSh 0 0 true]) c /\ happened is_bad c = 1.
Proof. exact p_C55_safe_refuted. Qed.
Print Assumptions C55_safe_refuted.

Theorem C56_last_handle_partial : forall (PR : Profile) (T : Type) (x : T) ls c,
  arc_reached x ls c -> happened is_lost c = 0 -> all_gone c ->
  happened is_forget c = 0 -> happened is_clone_panic c = 0 ->
  happened is_destroy c + happened is_out c = 1 /\
  (happened is_weak_made c = 0 -> happened is_drop_panic c = 0 -> happened is_free c = 1).
Proof. exact p_C56_last_handle_partial. Qed.
Print Assumptions C56_last_handle_partial.

Example C56_last_handle_ex : forall (PR : Profile), exists c,
  arc_reached 5 s_two c /\ happened is_lost c = 0 /\ all_gone c /\ happened is_forget c = 0 /\
  happened is_clone_panic c = 0 /\ happened is_weak_made c = 0 /\ happened is_drop_panic c = 0.
Proof. exact x_C56_last_handle_ex. Qed.

(** If the destructor panics the memory is not freed. *)
Theorem C56_last_handle_refuted : forall (PR : Profile), exists c,
  arc_reached 5 [LBeginX 0 CDrop; LEx 0 false; LEx 0 true] c /\ all_gone c /\
  happened is_forget c = 0 /\ happened is_weak_made c = 0 /\ happened is_destroy c = 1 /\ happened is_free c = 0.
Proof. exact p_C56_last_handle_refuted. Qed.
Print Assumptions C56_last_handle_refuted.

(** The part that holds: no [Weak] was ever made. *)
Theorem C57_freed_partial : forall (PR : Profile) (T : Type) (x : T) ls c,
  arc_reached x ls c -> happened is_lost c = 0 -> all_gone c ->
  happened is_forget c = 0 -> happened is_clone_panic c = 0 -> happened is_drop_panic c = 0 ->
  a_freed c = true <-> happened is_weak_made c = 0.
Proof. exact p_C57_freed_partial. Qed.
Print Assumptions C57_freed_partial.

Example C57_freed_ex : forall (PR : Profile), exists c,
  arc_reached 5 s_two c /\ happened is_lost c = 0 /\ all_gone c /\ happened is_forget c = 0 /\
  happened is_clone_panic c = 0 /\ happened is_drop_panic c = 0 /\ a_freed c = true.
Proof. exact x_C57_freed_ex. Qed.

(** Once a [Weak] was made the memory is never freed, whatever happens afterwards... *)
Theorem C57_never_freed_refuted : forall (PR : Profile) (T : Type) (x : T) ls c,
  arc_reached x ls c -> happened is_lost c = 0 -> 1 <= happened is_weak_made c ->
  happened is_free c = 0 /\ a_freed c = false.
Proof. exact p_C57_never_freed_refuted. Qed.
Print Assumptions C57_never_freed_refuted.

(** ... also when every [Arc] and every [Weak] is gone. *)
Theorem C57_freed_refuted : forall (PR : Profile), exists c,
  arc_reached 5 (s_down 0 ++ [LWeakDrop; LBeginX 0 CDrop; LEx 0 false; LEx 0 false; LEx 0 false]) c /\
  all_gone c /\ weaks c = 0 /\ happened is_destroy c = 1 /\ happened is_forget c = 0 /\ a_freed c = false.
Proof. exact p_C57_freed_refuted. Qed.
Print Assumptions C57_freed_refuted.

Theorem C58_exclusive : forall (PR : Profile) (T : Type) (x : T) ls c i h,
  arc_reached x ls c -> a_hs c !! i = Some h -> h_ex h = XMut ->
  alone i c /\ h_sh h = [] /\ happened is_forget c = 0 /\ a_data c = Alive /\ a_freed c = false.
Proof. exact p_C58_exclusive. Qed.
Print Assumptions C58_exclusive.

Example C58_exclusive_ex : forall (PR : Profile), exists c,
  arc_reached 5 (s_clone 0 ++ s_drop_one 0 ++ [LBeginX 1 CGetMut; LEx 1 false; LEx 1 false; LEx 1 false]) c /\
  a_hs c = [gone; AHandle XMut []].
Proof. exact x_C58_exclusive_ex. Qed.

(** [get_mut] run without interruption gives the reference exactly to an only handle without [Weak]s,
    and otherwise leaves the counters as they were. *)
Theorem C58_get_mut : forall (PR : Profile) (T : Type) (x : T) ls c i (f1 f2 f3 : bool),
  arc_reached x ls c -> happened is_lost c = 0 -> a_hs c !! i = Some held ->
  a_weak c <> usize_max ->
  let c1 := goto i (if (a_strong c =? 1) && (a_weak c =? 0) then XMut else XHeld) c in
  exists ls', ls' = LBeginX i CGetMut :: (if a_weak c =? 0 then [LEx i f1; LEx i f2; LEx i f3] else [LEx i f1]) /\
    arun ls' c = Some (say (AGetMut ((a_strong c =? 1) && (a_weak c =? 0))) c1) /\
    ((a_strong c =? 1) && (a_weak c =? 0) = true ->
       alone i c /\ happened is_weak_made c = 0).
Proof. exact p_C58_get_mut. Qed.
Print Assumptions C58_get_mut.

Example C58_get_mut_ex : forall (PR : Profile), exists c,
  arc_reached 5 (s_clone 0 ++ s_drop_one 0) c /\ a_hs c = [gone; held] /\ a_strong c = 1 /\ a_weak c = 0.
Proof. exact x_C58_get_mut_ex. Qed.

(** [downgrade] run without interruption returns, also after waiting for the counter to be unlocked. *)
Theorem C59_downgrade_partial : forall (PR : Profile) (T : Type) (x : T) ls c i h k s,
  arc_reached x ls c -> happened is_lost c = 0 -> a_hs c !! i = Some h -> h_ex h = XHeld ->
  h_sh h !! k = Some s -> s = SDown0 \/ s = SDown usize_max ->
  a_weak c <> usize_max ->
  exists c', arun [LSh i k false; LSh i k false] c = Some c' /\ a_log c' = a_log c ++ [AWeak] /\
    a_weak c' = a_weak c + 1 /\ a_strong c' = a_strong c.
Proof. exact p_C59_downgrade_partial. Qed.
Print Assumptions C59_downgrade_partial.

Example C59_downgrade_ex : forall (PR : Profile), exists c,
  arc_reached 5 (s_clone 0 ++ [LBeginX 0 CGetMut; LEx 0 false; LBeginS 1 CDowngrade; LSh 1 0 false; LSh 1 0 false;
    LEx 0 false; LEx 0 false]) c /\
  a_hs c = [held; AHandle XHeld [SDown usize_max]] /\ a_weak c = 0 /\ happened is_lost c = 0.
Proof. exact x_C59_downgrade_ex. Qed.

(** If the counter changed between the load and the exchange, [downgrade] keeps comparing with the old
    value: alone or not, the call cannot get out while the counter differs from it... *)
Theorem C59_stuck_refuted : forall (PR : Profile) (T : Type) (c : aconf T) i h k v flags,
  a_freed c = false -> a_hs c !! i = Some h -> h_sh h !! k = Some (SDown v) ->
  v <> usize_max -> a_weak c <> v -> arun (map (LSh i k) flags) c = Some c.
Proof. exact p_C59_stuck_refuted. Qed.
Print Assumptions C59_stuck_refuted.

(** ... and two threads calling [downgrade] at the same time get there: every other call is over, the
    counter is not locked, and this one never returns. *)
Theorem C59_downgrade_refuted : forall (PR : Profile), exists c,
  arc_reached 5 [LBeginS 0 CDowngrade; LBeginS 0 CDowngrade; LSh 0 0 false; LSh 0 1 false; LSh 0 0 false] c /\
  a_hs c = [AHandle XHeld [SDown 0]] /\ a_weak c = 1 /\ happened is_weak_given c = 1 /\
  forall flags, arun (map (LSh 0 0) flags) c = Some c.
Proof. exact p_C59_downgrade_refuted. Qed.
Print Assumptions C59_downgrade_refuted.

(** What [strong_count] returns, and the panic beyond [isize::MAX]. *)
Theorem C60_count_partial : forall (PR : Profile) (T : Type) (x : T) ls c,
  arc_reached x ls c -> happened is_lost c = 0 ->
  (forall i c', astep (LCounts i) c = Some c' -> exists w,
     a_log c' = a_log c ++ [AStrong (owners (a_hs c) + happened is_forget c + happened is_clone_panic c); AWeakCount w]) /\
  (forall i h k f1 f2, a_hs c !! i = Some h -> h_ex h = XHeld -> h_sh h !! k = Some SClone0 ->
     isize_max < a_strong c -> exists c', arun [LSh i k f1; LSh i k f2] c = Some c' /\
       a_log c' = a_log c ++ [AClonePanic] /\ length (a_hs c') = length (a_hs c)) /\
  (forall i h k f1 f2, a_hs c !! i = Some h -> h_ex h = XHeld -> h_sh h !! k = Some SClone0 ->
     a_strong c <= isize_max -> exists c' hs', arun [LSh i k f1; LSh i k f2] c = Some c' /\
       a_log c' = a_log c ++ [ACloneOk] /\ a_hs c' = hs' ++ [held] /\ length hs' = length (a_hs c)).
Proof. exact p_C60_count_partial. Qed.
Print Assumptions C60_count_partial.

Example C60_count_ex : forall (PR : Profile), exists c c',
  arc_reached 5 (s_clone 0 ++ s_clone 1 ++ [LBeginX 0 CForget; LBeginX 1 CDrop; LBeginS 2 CClone]) c /\
  happened is_lost c = 0 /\ a_hs c = [gone; AHandle XDrop []; AHandle XHeld [SClone0]] /\ a_strong c <= isize_max /\
  astep (LCounts 2) c = Some c' /\ a_log c' = a_log c ++ [AStrong 3; AWeakCount 0].
Proof. exact x_C60_count_ex. Qed.

Theorem C60_wrap_refuted : forall (PR : Profile), exists ls (c : aconf N),
  arun ls (arc_init 5) = Some c /\ a_strong c = 0 /\ a_hs c !! 0%nat = Some held /\ happened is_bad c = 0 /\
  exists ls' c', arun ls' c = Some c' /\ happened is_bad c' = 1.
Proof. exact p_C60_wrap_refuted. Qed.
Print Assumptions C60_wrap_refuted.

Theorem C61_unwrap_partial : forall (PR : Profile) (T : Type) (x : T) ls c,
  arc_reached x ls c -> happened is_lost c = 0 ->
  (* at most one call gets the value, and then it is never destroyed *)
  happened is_take c <= 1 /\ (happened is_take c = 1 -> happened is_destroy c = 0) /\
  (* the only handle gets it; any other handle is given back, nothing else changing *)
  (forall i h f f', a_hs c !! i = Some h -> h_ex h = XCas ->
     (alone i c /\ happened is_forget c = 0 /\ happened is_clone_panic c = 0 ->
        exists c', arun [LEx i f; LEx i f'] c = Some c' /\ a_log c' = a_log c ++ [ATake (a_val c)]) /\
     (~ (alone i c /\ happened is_forget c = 0 /\ happened is_clone_panic c = 0) ->
        astep (LEx i f) c = Some (say AUnwrapErr (goto i XHeld c)))).
Proof. exact p_C61_unwrap_partial. Qed.
Print Assumptions C61_unwrap_partial.

Example C61_unwrap_ex : forall (PR : Profile), exists c c',
  arc_reached 5 (s_clone 0 ++ [LBeginX 0 CUnwrap; LBeginX 1 CUnwrap]) c /\ happened is_lost c = 0 /\
  a_hs c = [AHandle XCas []; AHandle XCas []] /\
  arun [LEx 0 false; LBeginX 0 CDrop; LEx 0 false; LEx 1 false; LEx 1 false; LEx 1 false; LEx 1 false] c = Some c' /\
  a_log c' = [ACloneOk; AUnwrapErr; ATake 5; AFree].
Proof. exact x_C61_unwrap_ex. Qed.

(** After the refusal described at C55 the count is wrong: [try_unwrap] succeeds although there are two
    handles, and hands out a value that was moved out before. *)
Theorem C61_unwrap_refuted : forall (PR : Profile), exists c c',
  arc_reached 5 (s_lost ++ s_clone 0 ++ [LBeginX 0 CUnwrap; LEx 0 false]) c /\
  a_hs c = [AHandle XTake []; held] /\ happened is_bad c = 0 /\
  astep (LEx 0 false) c = Some c' /\ happened is_bad c' = 1.
Proof. exact p_C61_unwrap_refuted. Qed.
Print Assumptions C61_unwrap_refuted.

(** [weak_count] is the number of [Weak]s ever made by [downgrade] and [make_mut], or zero while
    [get_mut] is looking. *)
Theorem C62_weak_count_partial : forall (PR : Profile) (T : Type) (x : T) ls c,
  arc_reached x ls c -> happened is_lost c = 0 ->
  forall i c', astep (LCounts i) c = Some c' -> exists n,
    a_log c' = a_log c ++ [AStrong n; AWeakCount (happened is_weak_made c)].
Proof. exact p_C62_weak_count_partial. Qed.
Print Assumptions C62_weak_count_partial.

Example C62_weak_count_ex : forall (PR : Profile), exists c c',
  arc_reached 5 (s_down 0 ++ s_down 0) c /\ happened is_lost c = 0 /\ astep (LCounts 0) c = Some c' /\
  weaks c = 2 /\ a_log c' = a_log c ++ [AStrong 1; AWeakCount 2].
Proof. exact x_C62_weak_count_ex. Qed.

(** A dropped [Weak] is still counted. *)
Theorem C62_weak_count_refuted : forall (PR : Profile), exists c c',
  arc_reached 5 (s_down 0 ++ [LWeakDrop]) c /\ weaks c = 0 /\ astep (LCounts 0) c = Some c' /\
  a_log c' = a_log c ++ [AStrong 1; AWeakCount 1].
Proof. exact p_C62_weak_count_refuted. Qed.
Print Assumptions C62_weak_count_refuted.

(** With 2^64 - 1 [Weak]s the counter has the value that means "locked": [weak_count] gives zero and every later
    [downgrade] waits for ever. *)
Theorem C62_limit_refuted : forall (PR : Profile), exists ls (c : aconf N),
  arun ls (arc_init 5) = Some c /\ weaks c = usize_max /\ a_hs c = [held] /\
  (exists c', astep (LCounts 0) c = Some c' /\ a_log c' = a_log c ++ [AStrong 1; AWeakCount 0]) /\
  (forall flags, exists c', arun (LBeginS 0 CDowngrade :: LSh 0 0 false :: map (LSh 0 0) flags) c = Some c' /\
     a_hs c' = [AHandle XHeld [SDown usize_max]] /\ a_log c' = a_log c).
Proof. exact p_C62_limit_refuted. Qed.
Print Assumptions C62_limit_refuted.
