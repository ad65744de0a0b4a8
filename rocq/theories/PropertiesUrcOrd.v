(** Properties C100-C106: Urc under the release/acquire rules. *)
From Verif Require Import UrcOrdFacts.

(** *** C100: no data race *)
Theorem C100_race_free_partial : forall (PR : Profile) (T : Type) (x : T) ls w,
  urc_ord_reached x ls w -> happened is_zeroing (x_urc w) = 0 -> no_race (x_trace w).
Proof. exact p_C100_race_free_partial. Qed.
Print Assumptions C100_race_free_partial.

(** The two reads are made at the same time; both happen before the write. *)
Example C100_race_free_ex : forall (PR : Profile), exists w,
  urc_ord_reached 5 v_two w /\ happened is_zeroing (x_urc w) = 0 /\ forallb sharing (map fst v_two) = true /\
  map ac_kind (x_trace w) = [KWrite; KAtomic; KRead; KRead; KAtomic; KAtomic; KAtomic; KAtomic; KWrite; KRead] /\
  u_log (x_urc w) = [URead 5; URead 5; UFreeFence 1; UGetMut true; URead 7] /\
  match x_trace w !! 3%nat, x_trace w !! 8%nat with
  | Some a3, Some a8 => bool_decide (2%nat ∈ ac_before a3) = false /\ bool_decide (3%nat ∈ ac_before a8) = true
  | _, _ => False end.
Proof. exact x_C100_race_free_ex. Qed.

(** After the failed [try_unwrap] one thread writes through its mutable reference while another reads. *)
Theorem C100_race_free_refuted : forall (PR : Profile), exists w,
  urc_ord_reached 5 (v_wrong ++ [v0 (LCall 0 CRead); v0 (LEndMut 2 9)]) w /\ ~ no_race (x_trace w).
Proof. exact p_C100_race_free_refuted. Qed.
Print Assumptions C100_race_free_refuted.

(** *** C101: the mutable reference *)
Theorem C101_exclusive_partial : forall (PR : Profile) (T : Type) (x : T) ls w i f,
  urc_ord_reached x ls w -> happened is_zeroing (x_urc w) = 0 -> u_hs (x_urc w) !! i = Some (UH f UMut) ->
  only_handle i (x_urc w) /\ knows_uses i w.
Proof. exact p_C101_exclusive_partial. Qed.
Print Assumptions C101_exclusive_partial.

Example C101_exclusive_ex : forall (PR : Profile), exists w,
  urc_ord_reached 5 (v_env 0 0 ++ [v0 (LCall 1 CRead)] ++ v_drop 1 1 ++ v_mut 0 0 2) w /\ happened is_zeroing (x_urc w) = 0 /\
  u_hs (x_urc w) = [UH 0 UMut; UH 1 UGone].
Proof. exact x_C101_exclusive_ex. Qed.

Theorem C101_exclusive_refuted : forall (PR : Profile), exists w,
  urc_ord_reached 5 v_wrong w /\ u_hs (x_urc w) = [UH 0 UHeld; UH 0 UHeld; UH 1 UMut].
Proof. exact p_C101_exclusive_refuted. Qed.
Print Assumptions C101_exclusive_refuted.

(** *** C102: the value and the memory *)
Theorem C102_safe_partial : forall (PR : Profile) (T : Type) (x : T) ls w,
  urc_ord_reached x ls w -> happened is_zeroing (x_urc w) = 0 ->
  let c := x_urc w in
  happened is_bad c = 0 /\ (forall f, happened (is_ff f) c <= 1) /\ u_data c = UAlive /\ u_val c = last_written x (map fst ls).
Proof. exact p_C102_safe_partial. Qed.
Print Assumptions C102_safe_partial.

Theorem C102_fences_partial : forall (PR : Profile) (T : Type) (x : T) ls w f,
  urc_ord_reached x ls w -> happened is_zeroing (x_urc w) = 0 -> (f < length (u_fences (x_urc w)))%nat ->
  (forall i h, u_hs (x_urc w) !! i = Some h -> u_fence h = f -> u_pc h = UGone) -> happened (is_ff f) (x_urc w) = 1.
Proof. exact p_C102_fences_partial. Qed.
Print Assumptions C102_fences_partial.

Example C102_safe_ex : forall (PR : Profile), exists w,
  urc_ord_reached 5 v_two w /\ happened is_zeroing (x_urc w) = 0 /\ forallb sharing (map fst v_two) = true /\
  last_written 5 (map fst v_two) = 7 /\ u_hs (x_urc w) = [UH 0 UHeld; UH 1 UGone] /\ happened (is_ff 1) (x_urc w) = 1.
Proof. exact x_C102_safe_ex. Qed.

Theorem C102_safe_refuted : forall (PR : Profile), exists w,
  urc_ord_reached 5 [v0 (LBegin 0 CUnwrap); v0 (LStep 0 false); v0 (LStep 0 false); v0 (LStep 0 false)] w /\
  happened is_bad (x_urc w) = 1.
Proof. exact p_C102_safe_refuted. Qed.
Print Assumptions C102_safe_refuted.

(** *** C103: the runs of [UrcModel] *)
Theorem C103_interleavings : forall (PR : Profile) (T : Type) (x : T) ls c,
  urun ls (urc_init x) = Some c -> exists ls' w, xrun ls' (x_init x) = Some w /\ x_urc w = c /\ map fst ls' = ls.
Proof. exact p_C103_interleavings. Qed.
Print Assumptions C103_interleavings.

Theorem C103_continue : forall (PR : Profile) (T : Type) (x : T) ls0 w0 ls c,
  xrun ls0 (x_init x) = Some w0 -> urun ls (x_urc w0) = Some c ->
  exists ls' w, xrun ls' w0 = Some w /\ x_urc w = c /\ map fst ls' = ls.
Proof. exact p_C103_continue. Qed.
Print Assumptions C103_continue.

Example C103_ex : forall (PR : Profile), exists w0 c w,
  xrun (v_env 0 0 ++ v_drop 1 1) (x_init 5) = Some w0 /\
  urun [LCall 0 CCounts; LCall 0 CRead] (x_urc w0) = Some c /\
  xrun [(LCall 0 CCounts, 2%nat); (LCall 0 CRead, 0%nat)] w0 = Some w /\ x_urc w = c /\
  u_log c = [UFreeFence 1; UCounts 1 0 true; URead 5].
Proof. exact x_C103_ex. Qed.

(** Not conversely: a count may be read that is not the present one. *)
Example C103_more_ex : forall (PR : Profile), exists w,
  xrun (v_env 0 0 ++ v_drop 1 1 ++ [(LCall 0 CCounts, 1%nat)]) (x_init 5) = Some w /\
  u_log (x_urc w) = [UFreeFence 1; UCounts 1 0 false] /\ u_hs (x_urc w) = [UH 0 UHeld; UH 1 UGone] /\ u_sf (x_urc w) = 1.
Proof. exact x_C103_more_ex. Qed.

(** *** C104: [get_mut] on the only handle *)
Theorem C104_get_mut_partial : forall (PR : Profile) (T : Type) (x : T) ls w i f b1 b2 b3,
  urc_ord_reached x ls w -> happened is_zeroing (x_urc w) = 0 ->
  happened is_env_fail (x_urc w) = 0 -> happened is_fence_dropped (x_urc w) = 0 ->
  u_hs (x_urc w) !! i = Some (UH f UHeld) -> idle f (x_urc w) = true -> only_handle i (x_urc w) -> u_wf (x_urc w) = 0 ->
  knows_fences i w ->
  (exists t0 t1 t2 t3 w', xrun [(LBegin i CGetMut, t0); (LStep i b1, t1); (LStep i b2, t2); (LStep i b3, t3)] w = Some w') /\
  forall t0 t1 t2 t3 w', xrun [(LBegin i CGetMut, t0); (LStep i b1, t1); (LStep i b2, t2); (LStep i b3, t3)] w = Some w' ->
    u_hs (x_urc w') !! i = Some (UH f UMut) /\ u_log (x_urc w') = u_log (x_urc w) ++ [UGetMut true].
Proof. exact p_C104_get_mut_partial. Qed.
Print Assumptions C104_get_mut_partial.

Example C104_get_mut_ex : forall (PR : Profile), exists w,
  urc_ord_reached 5 (v_env 0 0 ++ v_drop 1 1 ++ [(LCall 0 CCounts, 2%nat)]) w /\ happened is_zeroing (x_urc w) = 0 /\
  happened is_env_fail (x_urc w) = 0 /\ happened is_fence_dropped (x_urc w) = 0 /\
  u_hs (x_urc w) = [UH 0 UHeld; UH 1 UGone] /\ idle 0 (x_urc w) = true /\ u_wf (x_urc w) = 0 /\ knows_fences 0 w.
Proof. exact x_C104_get_mut_ex. Qed.

(** The other thread has dropped its handle, but the drop is not yet visible: [get_mut] fails, and leaves
    [weak_fence] locked, so that it also fails later. *)
Theorem C104_get_mut_refuted : forall (PR : Profile), exists w,
  urc_ord_reached 5 (v_env 0 0 ++ v_drop 1 1) w /\ u_hs (x_urc w) = [UH 0 UHeld; UH 1 UGone] /\ u_wf (x_urc w) = 0 /\
  u_sf (x_urc w) = 1 /\
  exists w', xrun [v0 (LBegin 0 CGetMut); v0 (LStep 0 false); (LStep 0 false, 1%nat)] w = Some w' /\
    u_log (x_urc w') = [UFreeFence 1; UGetMut false] /\ u_wf (x_urc w') = usize_max /\
    forall t0 t1 w2, xrun [(LBegin 0 CGetMut, t0); (LStep 0 false, t1)] w' = Some w2 ->
      u_log (x_urc w2) = [UFreeFence 1; UGetMut false; UGetMut false] /\ u_wf (x_urc w2) = usize_max.
Proof. exact p_C104_get_mut_refuted. Qed.
Print Assumptions C104_get_mut_refuted.

(** *** C105: moving the value out *)
Theorem C105_unwrap_partial : forall (PR : Profile) (T : Type) (x : T) ls w i f b t w',
  urc_ord_reached x ls w -> happened is_zeroing (x_urc w) = 0 -> u_hs (x_urc w) !! i = Some (UH f UCas) ->
  xstep (LStep i b) t w = Some w' -> u_hs (x_urc w') !! i = Some (UH f UTake) -> only_urc i (x_urc w') /\ knows_uses i w'.
Proof. exact p_C105_unwrap_partial. Qed.
Print Assumptions C105_unwrap_partial.

Example C105_unwrap_ex : forall (PR : Profile), exists w w',
  urc_ord_reached 5 (v_env 0 0 ++ [v0 (LCall 1 CRead)] ++ v_drop 1 1 ++ [v0 (LBegin 0 CUnwrap)]) w /\
  happened is_zeroing (x_urc w) = 0 /\ u_hs (x_urc w) !! 0%nat = Some (UH 0 UCas) /\
  xstep (LStep 0 false) 2 w = Some w' /\ u_hs (x_urc w') !! 0%nat = Some (UH 0 UTake).
Proof. exact x_C105_unwrap_ex. Qed.

(** [make_mut] without [Weak]s decides to move the value out. *)
Theorem C105_make_mut_partial : forall (PR : Profile) (T : Type) (x : T) ls w i f b t w',
  urc_ord_reached x ls w -> happened is_zeroing (x_urc w) = 0 -> u_hs (x_urc w) !! i = Some (UH f UM0) ->
  xstep (LStep i b) t w = Some w' -> u_hs (x_urc w') !! i = Some (UH f UMLoad) -> knows_uses i w'.
Proof. exact p_C105_make_mut_partial. Qed.
Print Assumptions C105_make_mut_partial.

Example C105_make_mut_ex : forall (PR : Profile), exists w w',
  urc_ord_reached 5 (v_env 0 0 ++ [v0 (LCall 1 CRead)] ++ v_drop 1 1 ++ [v0 (LBegin 0 CMakeMut)]) w /\
  happened is_zeroing (x_urc w) = 0 /\ u_hs (x_urc w) !! 0%nat = Some (UH 0 UM0) /\
  xstep (LStep 0 false) 2 w = Some w' /\ u_hs (x_urc w') !! 0%nat = Some (UH 0 UMLoad).
Proof. exact x_C105_make_mut_ex. Qed.

(** After the failed [try_unwrap] the value is moved out by the handle sent away while the first thread reads it. *)
Theorem C105_unwrap_refuted : forall (PR : Profile), exists w,
  urc_ord_reached 5 ([v0 (LCall 0 CClone); v0 (LBegin 0 CUnwrap); (LStep 0 false, 0%nat)] ++ v_env 0 1 ++
    [v0 (LBegin 2 CUnwrap); (LStep 2 false, 2%nat); v0 (LCall 0 CRead); v0 (LStep 2 false)]) w /\
  u_hs (x_urc w) !! 0%nat = Some (UH 0 UHeld) /\ u_data (x_urc w) = UMoved /\ ~ no_race (x_trace w).
Proof. exact p_C105_unwrap_refuted. Qed.
Print Assumptions C105_unwrap_refuted.

(** *** C106: used for sharing only *)
Theorem C106_sharing : forall (PR : Profile) (T : Type) (x : T) ls w,
  urc_ord_reached x ls w -> forallb sharing (map fst ls) = true ->
  let c := x_urc w in
  no_race (x_trace w) /\ happened is_bad c = 0 /\ (forall f, happened (is_ff f) c <= 1) /\ u_data c = UAlive /\
  u_val c = last_written x (map fst ls) /\
  (forall i f, u_hs c !! i = Some (UH f UMut) -> only_handle i c /\ knows_uses i w) /\
  (forall i f, u_hs c !! i = Some (UH f UHeld) -> idle f c = true ->
     exists t w', xstep (LCall i CRead) t w = Some w') /\
  (forall i f t w', u_hs c !! i = Some (UH f UHeld) -> xstep (LCall i CRead) t w = Some w' ->
     u_log (x_urc w') = u_log c ++ [URead (last_written x (map fst ls))]).
Proof. exact p_C106_sharing. Qed.
Print Assumptions C106_sharing.

Example C106_sharing_ex : forall (PR : Profile), exists w,
  urc_ord_reached 5 v_two w /\ forallb sharing (map fst v_two) = true /\
  u_hs (x_urc w) = [UH 0 UHeld; UH 1 UGone] /\ idle 0 (x_urc w) = true /\ last_written 5 (map fst v_two) = 7.
Proof. exact x_C106_sharing_ex. Qed.
