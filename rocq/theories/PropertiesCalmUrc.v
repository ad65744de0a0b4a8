(** Property C84: Urc used for sharing. *)
From Verif Require Import CalmUrcFacts.

(** Threads share a value through [clone], [envelop], [downgrade], reads, drops and [get_mut], and drop all
    their handles: the counts of a fence are exactly its [Urc]s and [Weak]s ... *)
Theorem C84_counts : forall (PR : Profile) (T : Type) (x : T) ls c,
  urc_reached x ls c -> forallb sharing ls = true -> forallb keeping ls = true ->
  forall i f, u_hs c !! i = Some (UH f UHeld) -> idle f c = true ->
  exists c' b, ustep (LCall i CCounts) c = Some c' /\
    u_log c' = u_log c ++ [UCounts (count f is_urc c) (count f is_weak c) b].
Proof. exact p_C84_counts. Qed.
Print Assumptions C84_counts.

Example C84_counts_ex : forall (PR : Profile), exists c,
  urc_reached 7 [LCall 0 CClone; LCall 0 CDowngrade; LBegin 0 CEnvelop; LStep 0 false; LStep 0 false] c /\
  u_hs c = [UH 0 UHeld; UH 0 UHeld; UH 0 WHeld; UH 1 UHeld] /\ idle 0 c = true /\
  count 0 is_urc c = 2 /\ count 0 is_weak c = 1 /\
  forallb sharing [LCall 0 CClone; LCall 0 CDowngrade; LBegin 0 CEnvelop; LStep (T:=N) 0 false; LStep 0 false] = true /\
  forallb keeping [LCall 0 CClone; LCall 0 CDowngrade; LBegin 0 CEnvelop; LStep (T:=N) 0 false; LStep 0 false] = true.
Proof. exact x_C84_counts_ex. Qed.

(** ... a mutable reference given out by [get_mut] is the only way to the value ... *)
Theorem C84_exclusive : forall (PR : Profile) (T : Type) (x : T) ls c,
  urc_reached x ls c -> forallb sharing ls = true ->
  forall i f, u_hs c !! i = Some (UH f UMut) -> only_handle i c.
Proof. exact p_C84_exclusive. Qed.
Print Assumptions C84_exclusive.

(** ... while only [Urc]s are made and memory suffices, the shared counter is the number of fences in use
    whenever no call is in progress, and once every handle is dropped it is zero and the memory of every
    fence was released exactly once. *)
Theorem C84_fences : forall (PR : Profile) (T : Type) (x : T) ls c,
  urc_reached x ls c -> forallb sharing ls = true -> forallb keeping ls = true -> forallb urcs_only ls = true ->
  quiet c -> u_sf c = fences_that (fence_live c) c.
Proof. exact p_C84_fences. Qed.
Print Assumptions C84_fences.

Theorem C84_released : forall (PR : Profile) (T : Type) (x : T) ls c,
  urc_reached x ls c -> forallb sharing ls = true -> forallb keeping ls = true -> forallb urcs_only ls = true ->
  Forall (fun h => u_pc h = UGone) (u_hs c) ->
  u_sf c = 0 /\ forall f, (f < length (u_fences c))%nat -> happened (is_ff f) c = 1.
Proof. exact p_C84_released. Qed.
Print Assumptions C84_released.

Example C84_released_ex : forall (PR : Profile), exists ls c, urc_reached 7 ls c /\
  forallb sharing ls = true /\ forallb keeping ls = true /\ forallb urcs_only ls = true /\
  u_hs c = [UH 0 UGone; UH 1 UGone; UH 1 UGone] /\ length (u_fences c) = 2%nat /\ u_val c = 9 /\
  In (LEndMut 2 9) ls.
Proof. exact x_C84_released_ex. Qed.

Example C84_fences_ex : forall (PR : Profile), exists ls c, urc_reached 7 ls c /\
  forallb sharing ls = true /\ forallb keeping ls = true /\ forallb urcs_only ls = true /\ quiet c /\
  u_hs c = [UH 0 UHeld; UH 1 UHeld; UH 1 UHeld; UH 2 UGone] /\ u_sf c = 2.
Proof. exact x_C84_fences_ex. Qed.

Example C84_exclusive_ex : forall (PR : Profile), exists ls c, urc_reached 7 ls c /\ forallb sharing ls = true /\
  u_hs c = [UH 0 UGone; UH 1 UMut].
Proof. exact x_C84_exclusive_ex. Qed.
