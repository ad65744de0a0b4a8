(** Data races. *)
From Verif Require Export OrdModel.

(** Two accesses that must not be made at the same time: freeing the memory and anything, writing the
    value (destroying it, moving it out) and another access to the value. *)
Definition conflict (k1 k2 : akind) : Prop :=
  match k1, k2 with
  | KFree, _ | _, KFree => True
  | KWrite, KWrite | KWrite, KRead | KRead, KWrite => True
  | _, _ => False
  end.

(** No data race in a run with these accesses: of two conflicting ones the earlier happens before the later. *)
Definition no_race (tr : list access) : Prop :=
  forall e1 e2 a1 a2, (e1 < e2)%nat -> tr !! e1 = Some a1 -> tr !! e2 = Some a2 ->
    conflict (ac_kind a1) (ac_kind a2) -> e1 ∈ ac_before a2.
