(** Vocabulary for the statements on [Arc] under the release/acquire rules. *)
From Verif Require Export ArcOrdModel SpecOrd SpecArc.

(** No data race: of two conflicting accesses the earlier happens before the later. *)
Definition race_free {T} (w : wconf T) : Prop :=
  forall e1 e2 a1 a2, (e1 < e2)%nat -> w_trace w !! e1 = Some a1 -> w_trace w !! e2 = Some a2 ->
    conflict (ac_kind a1) (ac_kind a2) -> e1 ∈ ac_before a2.

(** The owner of handle [i] knows of every access made so far. *)
Definition knows_all {T} (i : nat) (w : wconf T) : Prop :=
  exists hv, w_hv w !! i = Some hv /\ forall e a, w_trace w !! e = Some a -> e ∈ v_seen (t_cur (hv_own hv)).

(** The owner of handle [i] knows the latest values of both counters. *)
Definition knows_counts {T} (i : nat) (w : wconf T) : Prop :=
  exists hv, w_hv w !! i = Some hv /\
    S (v_strong (t_cur (hv_own hv))) = length (w_strong w) /\ S (v_weak (t_cur (hv_own hv))) = length (w_weak w).

(** [w] is reached from [Arc::new(x)] by the steps [ls] (fewer than 2^64 - 8 of them). *)
Definition ord_reached {PR : Profile} {T} (x : T) (ls : list (wlabel T)) (w : wconf T) : Prop :=
  llen ls + 8 <= usize_max /\ wrun ls (w_init x) = Some w.

(** *** Conditions on the calls made *)
Section calls.
  Context {T : Type}.
  Implicit Types (ls : list (wlabel T)).
  (** [make_mut] is not called. *)
  Definition w_plain ls : Prop := forall i t, WStep (LBeginX i CMakeMut) t ∉ ls.
  (** No handle is given to [mem::forget], no [Weak] is made, no destructor panics. *)
  Definition w_tidy ls : Prop :=
    (forall i t, WStep (LBeginX i CForget) t ∉ ls) /\ (forall i t, WStep (LBeginS i CDowngrade) t ∉ ls) /\
    (forall i t, WStep (LEx i true) t ∉ ls).
End calls.
