(** Properties C63-C68: Urc. *)
From Verif Require Import UrcFacts3 UrcWrap.

(** *** C63 *)
Theorem C63_safe : forall (PR : Profile) (T : Type) (x : T) ls c,
  urc_reached x ls c -> forallb sharing ls = true ->
  happened is_bad c = 0 /\ (forall f, happened (is_ff f) c <= 1) /\ happened is_fm c = 0.
Proof. exact p_C63_safe. Qed.
Print Assumptions C63_safe.

(** Two threads; the second clones and reads, the first drops its handle. *)
Example C63_safe_ex : forall (PR : Profile), exists c,
  urc_reached 5 (s_env 0 ++ [LCall 0 CDowngrade; LBegin 0 CDrop; LCall 1 CClone; LStep 0 false; LCall 3 CRead]
                 ++ s_drop 1 1 ++ s_drop 3 2) c /\
  forallb (@sharing N) (s_env 0 ++ [LCall 0 CDowngrade; LBegin 0 CDrop; LCall 1 CClone; LStep 0 false; LCall 3 CRead]
                 ++ s_drop 1 1 ++ s_drop 3 2) = true /\
  u_log c = [URead 5; UFreeFence 1] /\ u_hs c = [UH 0 UGone; UH 1 UGone; UH 0 WHeld; UH 1 UGone].
Proof. exact x_C63_safe_ex. Qed.

(** A read gives the value written last. *)
Theorem C63_read : forall (PR : Profile) (T : Type) (x : T) ls c,
  urc_reached x ls c -> forallb sharing ls = true ->
  forall i f, u_hs c !! i = Some (UH f UHeld) -> idle f c = true ->
  exists c', ustep (LCall i CRead) c = Some c' /\ u_log c' = u_log c ++ [URead (last_written x ls)].
Proof. exact p_C63_read. Qed.
Print Assumptions C63_read.

Example C63_read_ex : forall (PR : Profile), exists c,
  urc_reached 5 ([LBegin 0 CGetMut] ++ s_steps 0 3 ++ [LEndMut 0 7] ++ s_env 0) c /\
  forallb (@sharing N) ([LBegin 0 CGetMut] ++ s_steps 0 3 ++ [LEndMut 0 7] ++ s_env 0) = true /\
  last_written 5 ([LBegin 0 CGetMut] ++ s_steps 0 3 ++ [LEndMut 0 7] ++ s_env 0) = 7 /\
  u_hs c !! 1%nat = Some (UH 1 UHeld) /\ idle 1 c = true.
Proof. exact x_C63_read_ex. Qed.

(** The same for all calls, as long as no [make_mut] moves the value out and the exchange in [try_unwrap]
    does not succeed. *)
Theorem C63_safe_more : forall (PR : Profile) (T : Type) (x : T) ls c,
  urc_reached x ls c -> happened is_zeroing c = 0 ->
  happened is_bad c = 0 /\ (forall f, happened (is_ff f) c <= 1) /\ u_val c = last_written x ls /\ u_data c = UAlive.
Proof. exact p_C63_safe_more. Qed.
Print Assumptions C63_safe_more.

Example C63_safe_more_ex : forall (PR : Profile), exists c,
  urc_reached 5 (s_env 0 ++ [LBegin 0 CMakeMut; LBegin 1 CUnwrap] ++ s_steps 0 3 ++ s_steps 1 1 ++ s_steps 0 2) c /\
  happened is_zeroing c = 0 /\ u_log c = [UCopied 5; UUnwrapErr; UFreeFence 0].
Proof. exact x_C63_safe_more_ex. Qed.

(** Whatever is done, the shared block is never freed and the library never destroys the value. *)
Theorem C64_never_refuted : forall (PR : Profile) (T : Type) (x : T) ls c,
  urun ls (urc_init x) = Some c -> happened is_destroy c = 0 /\ happened is_fm c = 0 /\ u_mfreed c = false.
Proof. exact p_C64_never_refuted. Qed.
Print Assumptions C64_never_refuted.

Example C64_never_ex : forall (PR : Profile), exists c,
  urun (s_env 0 ++ s_drop 0 2 ++ s_drop 1 3) (urc_init 5) = Some c /\ all_gone c /\ u_data c = UAlive /\
  u_log c = [UFreeFence 0; UFreeFence 1].
Proof. exact x_C64_never_ex. Qed.

Theorem C64_destroyed_refuted : forall (PR : Profile), exists c,
  urc_reached 5 (s_drop 0 3) c /\ all_gone c /\ u_data c = UAlive /\ u_mfreed c = false /\
  happened is_destroy c = 0 /\ happened is_fm c = 0.
Proof. exact p_C64_destroyed_refuted. Qed.
Print Assumptions C64_destroyed_refuted.

(** What is released: the memory of every fence, once, when all its handles are gone. *)
Theorem C64_fences_partial : forall (PR : Profile) (T : Type) (x : T) ls c,
  urc_reached x ls c -> happened is_zeroing c = 0 ->
  forall f, (f < length (u_fences c))%nat ->
  (forall i h, u_hs c !! i = Some h -> u_fence h = f -> u_pc h = UGone) -> happened (is_ff f) c = 1.
Proof. exact p_C64_fences_partial. Qed.
Print Assumptions C64_fences_partial.

Example C64_fences_ex : forall (PR : Profile), exists c,
  urc_reached 5 (s_env 0 ++ [LCall 0 CDowngrade; LWDrop 2; LStep 2 false] ++ s_drop 0 2) c /\ happened is_zeroing c = 0 /\
  length (u_fences c) = 2%nat /\ u_hs c = [UH 0 UGone; UH 1 UHeld; UH 0 UGone] /\ u_log c = [UFreeFence 0].
Proof. exact x_C64_fences_ex. Qed.

(** *** C65 *)
Theorem C65_fence_counts_partial : forall (PR : Profile) (T : Type) (x : T) ls c,
  urc_reached x ls c -> happened is_zeroing c = 0 ->
  forall i f, u_hs c !! i = Some (UH f UHeld) -> idle f c = true ->
  exists c', ustep (LCall i CCounts) c = Some c' /\
    u_log c' = u_log c ++ [UCounts (count f is_urc c + count f is_urc_lost c)
                                   (count f is_weak c + count f is_weak_lost c) (u_sf c =? 1)].
Proof. exact p_C65_fence_counts_partial. Qed.
Print Assumptions C65_fence_counts_partial.

Example C65_fence_counts_ex : forall (PR : Profile), exists c c',
  urc_reached 5 ([LCall 0 CClone; LCall 0 CDowngrade; LCall 0 CDowngrade] ++ s_env 1) c /\ happened is_zeroing c = 0 /\
  u_hs c !! 0%nat = Some (UH 0 UHeld) /\ idle 0 c = true /\ ustep (LCall 0 CCounts) c = Some c' /\
  u_log c' = [UCounts 2 2 false].
Proof. exact x_C65_fence_counts_ex. Qed.

(** The counter of strong fences also counts fences that have no [Urc] any more but [Weak]s (or handles
    that were forgotten). *)
Theorem C65_strong_fences_partial : forall (PR : Profile) (T : Type) (x : T) ls c,
  urc_reached x ls c -> happened is_zeroing c = 0 -> quiet c ->
  happened is_env_fail c = 0 -> happened is_fence_dropped c = 0 ->
  u_sf c = fences_that (fence_live c) c + fences_that (fence_orphan c) c /\
  (forall f, fence_orphan c f = true -> exists i h, u_hs c !! i = Some h /\ u_fence h = f /\
     (is_urc_lost (u_pc h) = true \/ is_weak (u_pc h) = true \/ is_weak_lost (u_pc h) = true \/ u_pc h = WLeaked)).
Proof. exact p_C65_strong_fences_partial. Qed.
Print Assumptions C65_strong_fences_partial.

Example C65_strong_fences_ex : forall (PR : Profile), exists c,
  urc_reached 5 ([LCall 0 CDowngrade] ++ s_env 0 ++ s_env 0 ++ s_drop 2 2 ++ s_drop 0 1) c /\ happened is_zeroing c = 0 /\
  quiet c /\ happened is_env_fail c = 0 /\ happened is_fence_dropped c = 0 /\
  u_sf c = 2 /\ fences_that (fence_live c) c = 1 /\ fences_that (fence_orphan c) c = 1.
Proof. exact x_C65_strong_fences_ex. Qed.

(** With nothing but [Urc]s it is exact. *)
Theorem C65_urcs_partial : forall (PR : Profile) (T : Type) (x : T) ls c,
  urc_reached x ls c -> happened is_zeroing c = 0 -> 
  happened is_env_fail c = 0 -> happened is_fence_dropped c = 0 ->
  Forall (fun h => u_pc h = UHeld \/ u_pc h = UMut \/ u_pc h = UGone) (u_hs c) ->
  u_sf c = fences_that (fence_live c) c.
Proof. exact p_C65_urcs_partial. Qed.
Print Assumptions C65_urcs_partial.

Example C65_urcs_ex : forall (PR : Profile), exists c,
  urc_reached 5 ([LCall 0 CClone] ++ s_env 0 ++ s_env 1 ++ s_drop 2 2) c /\ happened is_zeroing c = 0 /\
  happened is_env_fail c = 0 /\ happened is_fence_dropped c = 0 /\
  Forall (fun h => u_pc h = UHeld \/ u_pc h = UMut \/ u_pc h = UGone) (u_hs c) /\ u_sf c = 2.
Proof. exact x_C65_urcs_ex. Qed.

(** A fence whose only [Urc] was dropped while it had a [Weak] stays counted, even after the [Weak] is dropped. *)
Theorem C65_strong_fences_refuted : forall (PR : Profile), exists c,
  urc_reached 5 ([LCall 0 CDowngrade] ++ s_env 0 ++ s_drop 0 1 ++ [LWDrop 1] ++ s_steps 1 2) c /\
  u_hs c = [UH 0 UGone; UH 0 WLeaked; UH 1 UHeld] /\ u_sf c = 2 /\ fences_that (fence_live c) c = 1.
Proof. exact p_C65_strong_fences_refuted. Qed.
Print Assumptions C65_strong_fences_refuted.

(** When the exchange succeeds and the value is taken, there is no other [Urc]. *)
Theorem C66_only_partial : forall (PR : Profile) (T : Type) (x : T) ls c,
  urc_reached x ls c -> happened is_zeroing c = 0 ->
  forall i f b c', u_hs c !! i = Some (UH f UCas) -> ustep (LStep i b) c = Some c' ->
  u_hs c' !! i = Some (UH f UTake) -> only_urc i c.
Proof. exact p_C66_only_partial. Qed.
Print Assumptions C66_only_partial.

Example C66_only_ex : forall (PR : Profile), exists c c',
  urc_reached 5 (s_env 0 ++ [LCall 0 CDowngrade] ++ s_drop 1 2 ++ [LBegin 0 CUnwrap]) c /\ happened is_zeroing c = 0 /\
  u_hs c !! 0%nat = Some (UH 0 UCas) /\ ustep (LStep 0 false) c = Some c' /\ u_hs c' !! 0%nat = Some (UH 0 UTake).
Proof. exact x_C66_only_ex. Qed.

(** A [Urc] of another thread: the handle is given back, nothing has changed. *)
Theorem C66_refused_partial : forall (PR : Profile) (T : Type) (x : T) ls c,
  urc_reached x ls c -> happened is_zeroing c = 0 ->
  forall i f j g p b, u_hs c !! i = Some (UH f UHeld) -> idle f c = true ->
  u_hs c !! j = Some (UH g p) -> is_urc p = true -> g <> f ->
  urun [LBegin i CUnwrap; LStep i b] c = Some (say UUnwrapErr c).
Proof. exact p_C66_refused_partial. Qed.
Print Assumptions C66_refused_partial.

Example C66_refused_ex : forall (PR : Profile), exists c,
  urc_reached 5 (s_env 0 ++ [LCall 0 CClone]) c /\ happened is_zeroing c = 0 /\
  u_hs c !! 0%nat = Some (UH 0 UHeld) /\ idle 0 c = true /\ u_hs c !! 1%nat = Some (UH 1 UHeld).
Proof. exact x_C66_refused_ex. Qed.

(** The only handle but for [Weak]s of its own fence gets the value. *)
Theorem C66_taken_partial : forall (PR : Profile) (T : Type) (x : T) ls c,
  urc_reached x ls c -> happened is_zeroing c = 0 ->
  happened is_env_fail c = 0 -> happened is_fence_dropped c = 0 ->
  forall i f k b b', u_hs c !! i = Some (UH f UHeld) -> idle f c = true ->
  u_hs c !! k = Some (UH f WHeld) ->
  (forall j h, j <> i -> u_hs c !! j = Some h -> u_pc h = UGone \/ h = UH f WHeld) ->
  exists c', urun [LBegin i CUnwrap; LStep i b; LStep i b'] c = Some c' /\
    u_log c' = u_log c ++ [UCasOk; UTook (u_val c)] /\ u_data c' = UMoved /\ u_hs c' = <[i := UH f UGone]> (u_hs c).
Proof. exact p_C66_taken_partial. Qed.
Print Assumptions C66_taken_partial.

Example C66_taken_ex : forall (PR : Profile), exists c,
  urc_reached 5 (s_env 0 ++ [LCall 0 CDowngrade] ++ s_drop 1 2) c /\ happened is_zeroing c = 0 /\
  happened is_env_fail c = 0 /\ happened is_fence_dropped c = 0 /\ idle 0 c = true /\
  u_hs c = [UH 0 UHeld; UH 1 UGone; UH 0 WHeld].
Proof. exact x_C66_taken_ex. Qed.

(** The only handle, without [Weak]s: the memory of the fence is freed and then read. *)
Theorem C66_freed_refuted : forall (PR : Profile) (T : Type) (x : T) ls c,
  urc_reached x ls c -> happened is_zeroing c = 0 ->
  happened is_env_fail c = 0 -> happened is_fence_dropped c = 0 ->
  forall i f, u_hs c !! i = Some (UH f UHeld) -> only_handle i c -> idle f c = true ->
  exists c', urun (LBegin i CUnwrap :: s_steps i 3) c = Some c' /\
    u_log c' = u_log c ++ [UCasOk; UTook (u_val c); UFreeFence f; UBad].
Proof. exact p_C66_freed_refuted. Qed.
Print Assumptions C66_freed_refuted.

Example C66_freed_ex : forall (PR : Profile), exists c,
  urc_reached 5 (s_env 0 ++ s_drop 1 2) c /\ happened is_zeroing c = 0 /\
  happened is_env_fail c = 0 /\ happened is_fence_dropped c = 0 /\ idle 0 c = true /\
  u_hs c = [UH 0 UHeld; UH 1 UGone].
Proof. exact x_C66_freed_ex. Qed.

(** With a second [Urc] on the same fence the call fails but the counter of strong fences is left at zero;
    a [Urc] sent to another thread then gets the value although there are three. *)
Theorem C66_counter_refuted : forall (PR : Profile), exists c c',
  urc_reached 5 [LCall 0 CClone; LBegin 0 CUnwrap; LStep 0 false] c /\
  u_hs c = [UH 0 UHeld; UH 0 UHeld] /\ u_log c = [UCasOk; UUnwrapErr] /\ u_sf c = 0 /\
  urun (s_env 0 ++ [LBegin 2 CUnwrap; LStep 2 false; LStep 2 false; LCall 0 CRead]) c = Some c' /\
  u_log c' = [UCasOk; UUnwrapErr; UCasOk; UTook 5; UFreeFence 1; UBad].
Proof. exact p_C66_counter_refuted. Qed.
Print Assumptions C66_counter_refuted.

(** With a [Urc] in another thread the value is copied; nothing else changes until the old [Urc] is dropped. *)
Theorem C67_copy_partial : forall (PR : Profile) (T : Type) (x : T) ls c,
  urc_reached x ls c -> happened is_zeroing c = 0 ->
  forall i f j g p b, u_hs c !! i = Some (UH f UHeld) -> idle f c = true ->
  u_hs c !! j = Some (UH g p) -> is_urc p = true -> g <> f ->
  urun [LBegin i CMakeMut; LStep i b; LStep i false; LStep i false] c =
    Some (say (UCopied (last_written x ls)) (goto i (UH f UHeld) UDrop c)).
Proof. exact p_C67_copy_partial. Qed.
Print Assumptions C67_copy_partial.

Example C67_copy_ex : forall (PR : Profile), exists c,
  urc_reached 5 (s_env 0 ++ [LCall 0 CClone]) c /\ happened is_zeroing c = 0 /\
  u_hs c !! 0%nat = Some (UH 0 UHeld) /\ idle 0 c = true /\ u_hs c !! 1%nat = Some (UH 1 UHeld).
Proof. exact x_C67_copy_ex. Qed.

(** Release build, only handle: the value is moved into a new [Urc]; no memory is misused. *)
Theorem C67_move_partial : forall (PR : Profile) (T : Type) (x : T) ls c,
  e_checks = false ->
  urc_reached x ls c -> happened is_zeroing c = 0 ->
  happened is_env_fail c = 0 -> happened is_fence_dropped c = 0 ->
  forall i f, u_hs c !! i = Some (UH f UHeld) -> only_handle i c -> idle f c = true ->
  exists c', urun (LBegin i CMakeMut :: s_steps i 8) c = Some c' /\
    u_log c' = u_log c ++ [UMoving; UMovedOut (last_written x ls)] /\ u_hs c' = <[i := UH f UGone]> (u_hs c).
Proof. exact p_C67_move_partial. Qed.
Print Assumptions C67_move_partial.

Example C67_move_ex : exists c,
  @urc_reached N {| e_checks := false; e_strict := false |} 5 (s_env 0 ++ s_drop 1 2) c /\ happened is_zeroing c = 0 /\
  happened is_env_fail c = 0 /\ happened is_fence_dropped c = 0 /\ idle 0 c = true /\
  u_hs c = [UH 0 UHeld; UH 1 UGone].
Proof. exact x_C67_move_ex. Qed.

(** Debug build, only handle: always a panic. *)
Theorem C67_panic_refuted : forall (PR : Profile) (T : Type) (x : T) ls c,
  e_checks = true ->
  urc_reached x ls c -> happened is_zeroing c = 0 ->
  happened is_env_fail c = 0 -> happened is_fence_dropped c = 0 ->
  forall i f, u_hs c !! i = Some (UH f UHeld) -> only_handle i c -> idle f c = true ->
  exists k c', urun (LBegin i CMakeMut :: s_steps i k) c = Some c' /\ u_log c' = u_log c ++ [UMoving; UPanic].
Proof. exact p_C67_panic_refuted. Qed.
Print Assumptions C67_panic_refuted.

Example C67_panic_ex : exists c c',
  @urc_reached N {| e_checks := true; e_strict := false |} 5 (s_env 0 ++ s_drop 1 2) c /\ happened is_zeroing c = 0 /\
  happened is_env_fail c = 0 /\ happened is_fence_dropped c = 0 /\ idle 0 c = true /\
  u_hs c = [UH 0 UHeld; UH 1 UGone] /\
  @urun {| e_checks := true; e_strict := false |} N (LBegin 0 CMakeMut :: s_steps 0 4) c = Some c' /\
  u_log c' = [UFreeFence 1; UMoving; UPanic].
Proof. exact x_C67_panic_ex. Qed.

(** Release build, a second [Urc] on the same fence: the value is moved away from under it. *)
Theorem C67_steal_refuted : exists c,
  @urc_reached N {| e_checks := false; e_strict := false |} 5
    ([LCall 0 CClone; LBegin 0 CMakeMut] ++ s_steps 0 8 ++ [LCall 1 CRead]) c /\
  u_hs c = [UH 0 UGone; UH 0 UHeld] /\ u_log c = [UMoving; UMovedOut 5; UBad].
Proof. exact p_C67_steal_refuted. Qed.
Print Assumptions C67_steal_refuted.

(** While a mutable reference is out there is no other handle. *)
Theorem C68_exclusive_partial : forall (PR : Profile) (T : Type) (x : T) ls c,
  urc_reached x ls c -> happened is_zeroing c = 0 ->
  forall i f, u_hs c !! i = Some (UH f UMut) -> only_handle i c.
Proof. exact p_C68_exclusive_partial. Qed.
Print Assumptions C68_exclusive_partial.

Example C68_exclusive_ex : forall (PR : Profile), exists c,
  urc_reached 5 (s_env 0 ++ s_drop 1 2 ++ [LBegin 0 CGetMut] ++ s_steps 0 3) c /\ happened is_zeroing c = 0 /\
  u_hs c = [UH 0 UMut; UH 1 UGone].
Proof. exact x_C68_exclusive_ex. Qed.

(** If the counter [weak_fence] is zero, [get_mut] gives a reference exactly when there is no other handle. *)
Theorem C68_exact_partial : forall (PR : Profile) (T : Type) (x : T) ls c,
  urc_reached x ls c -> happened is_zeroing c = 0 ->
  happened is_env_fail c = 0 -> happened is_fence_dropped c = 0 ->
  forall i f, u_hs c !! i = Some (UH f UHeld) -> idle f c = true -> u_wf c = 0 ->
  exists k c' b, urun (LBegin i CGetMut :: s_steps i k) c = Some c' /\ u_log c' = u_log c ++ [UGetMut b] /\
    u_hs c' = <[i := UH f (if b then UMut else UHeld)]> (u_hs c) /\ (b = true <-> only_handle i c).
Proof. exact p_C68_exact_partial. Qed.
Print Assumptions C68_exact_partial.

Example C68_exact_ex : forall (PR : Profile), exists c c',
  urc_reached 5 ([LCall 0 CClone; LBegin 0 CGetMut] ++ s_steps 0 3) c /\ happened is_zeroing c = 0 /\
  happened is_env_fail c = 0 /\ happened is_fence_dropped c = 0 /\ idle 0 c = true /\ u_wf c = 0 /\
  u_hs c = [UH 0 UHeld; UH 0 UHeld] /\
  urun (s_drop 1 1 ++ [LBegin 0 CGetMut] ++ s_steps 0 3) c = Some c' /\ u_log c' = [UGetMut false; UGetMut true].
Proof. exact x_C68_exact_ex. Qed.

(** A call refused because of another thread leaves [weak_fence] locked: refused for ever, even for the only
    handle. *)
Theorem C68_repeat_refuted : forall (PR : Profile), exists c c',
  urc_reached 5 (s_env 0 ++ [LBegin 0 CGetMut] ++ s_steps 0 2 ++ s_drop 1 2) c /\
  u_hs c = [UH 0 UHeld; UH 1 UGone] /\ u_wf c = usize_max /\
  urun [LBegin 0 CGetMut; LStep 0 false] c = Some c' /\ u_log c' = u_log c ++ [UGetMut false].
Proof. exact p_C68_repeat_refuted. Qed.
Print Assumptions C68_repeat_refuted.

(** After a failed [try_unwrap] (C66) a mutable reference is given out while other threads hold [Urc]s. *)
Theorem C68_exclusive_refuted : forall (PR : Profile), exists c,
  urc_reached 5 ([LCall 0 CClone; LBegin 0 CUnwrap; LStep 0 false] ++ s_env 0 ++ [LBegin 2 CGetMut] ++ s_steps 2 3) c /\
  u_hs c = [UH 0 UHeld; UH 0 UHeld; UH 1 UMut].
Proof. exact p_C68_exclusive_refuted. Qed.
Print Assumptions C68_exclusive_refuted.

(** In builds without overflow checks clones that are forgotten bring the count of a fence round to one while
    two [Urc]s are in use: dropping one releases the fence under the other. *)
Theorem C65_wrap_refuted : forall (PR : Profile), e_checks = false -> exists ls (c : uconf N),
  urun ls (urc_init 5) = Some c /\ forallb sharing ls = true /\
  u_fences c = [Fence 1 0 false] /\ u_hs c !! 0%nat = Some (UH 0 UHeld) /\ u_hs c !! 1%nat = Some (UH 0 UHeld) /\
  count 0 is_urc c = 2 /\ u_log c = [] /\
  exists c', urun (s_drop 0 3 ++ [LCall 1 CClone]) c = Some c' /\ u_log c' = [UFreeFence 0; UBad].
Proof. exact p_C65_wrap_refuted. Qed.
Print Assumptions C65_wrap_refuted.

Example C65_wrap_ex : exists PR : Profile, @e_checks PR = false.
Proof. exact x_C65_wrap_ex. Qed.

(** In builds with overflow checks the call panics instead and nothing has changed, in every state. *)
Theorem C65_overflow_partial : forall (PR : Profile) (T : Type) (c : uconf T) i f x,
  e_checks = true -> u_hs c !! i = Some (UH f UHeld) -> idle f c = true ->
  u_fences c !! f = Some x -> f_freed x = false ->
  let panicked := Some (UConf (u_sf c) (u_wf c) (u_val c) (u_data c) (u_mfreed c) (u_fences c) (u_hs c)
                              (u_log c ++ [UPanic])) in
  (f_strong x = usize_max -> ustep (LCall i CClone) c = panicked) /\
  (f_weak x = usize_max -> ustep (LCall i CDowngrade) c = panicked).
Proof. exact p_C65_overflow_partial. Qed.
Print Assumptions C65_overflow_partial.

Example C65_overflow_ex :
  let c := UConf 1 0 5 UAlive false [Fence usize_max usize_max false] [UH 0 UHeld] [] in
  idle 0 c = true /\ @ustep {| e_checks := true; e_strict := true |} N (LCall 0 CClone) c =
    Some (UConf 1 0 5 UAlive false [Fence usize_max usize_max false] [UH 0 UHeld] [UPanic]).
Proof. exact x_C65_overflow_ex. Qed.

(** In the other builds the call returns a handle and the count is zero, in every state. *)
Theorem C65_zero_refuted : forall (PR : Profile) (T : Type) (c : uconf T) i f x,
  e_checks = false -> u_hs c !! i = Some (UH f UHeld) -> idle f c = true ->
  u_fences c !! f = Some x -> f_freed x = false ->
  let counted y p := Some (UConf (u_sf c) (u_wf c) (u_val c) (u_data c) (u_mfreed c) (<[f := y]> (u_fences c))
                                 (u_hs c ++ [UH f p]) (u_log c)) in
  (f_strong x = usize_max -> ustep (LCall i CClone) c = counted (Fence 0 (f_weak x) false) UHeld) /\
  (f_weak x = usize_max -> ustep (LCall i CDowngrade) c = counted (Fence (f_strong x) 0 false) WHeld).
Proof. exact p_C65_zero_refuted. Qed.
Print Assumptions C65_zero_refuted.

Example C65_zero_ex :
  let c := UConf 1 0 5 UAlive false [Fence usize_max usize_max false] [UH 0 UHeld] [] in
  idle 0 c = true /\ @ustep {| e_checks := false; e_strict := true |} N (LCall 0 CDowngrade) c =
    Some (UConf 1 0 5 UAlive false [Fence usize_max 0 false] [UH 0 UHeld; UH 0 WHeld] []).
Proof. exact x_C65_zero_ex. Qed.
