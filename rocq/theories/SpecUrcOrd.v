(** Vocabulary for the statements on [Urc] under the release/acquire rules. *)
From Verif Require Export SpecOrd UrcOrdModel SpecUrc.

(** The thread of handle [i] knows of every access made so far to the value. *)
Definition value_access (a : access) : Prop := ac_kind a = KRead \/ ac_kind a = KWrite.
Definition knows_uses {T} (i : nat) (w : xconf T) : Prop :=
  exists h tv, u_hs (x_urc w) !! i = Some h /\ x_fv w !! u_fence h = Some tv /\
    forall e a, x_trace w !! e = Some a -> value_access a -> e ∈ v_seen (t_cur tv).

(** The thread of handle [i] knows the latest values of both counters. *)
Definition knows_fences {T} (i : nat) (w : xconf T) : Prop :=
  exists h tv, u_hs (x_urc w) !! i = Some h /\ x_fv w !! u_fence h = Some tv /\
    S (v_strong (t_cur tv)) = length (x_strong w) /\ S (v_weak (t_cur tv)) = length (x_weak w).

(** [w] is reached from [Urc::new(x)] by the steps [ls] (fewer than 2^64 - 8 of them). *)
Definition urc_ord_reached {PR : Profile} {T} (x : T) (ls : list (ulabel T * nat)) (w : xconf T) : Prop :=
  llen ls + 8 <= usize_max /\ xrun ls (x_init x) = Some w.
