(** Ways of using the containers for which the full list and text behaviour holds.  Independent of
    the model: conditions on the calls a program makes. *)
From Verif Require Import Base SpecUtf SpecVec SpecSmall SpecStr.

(** Calls on a [Vec]: anything but shrinking, unless to a positive capacity; in the [strict] reading
    also not [swap_remove]. *)
Definition calm_vec {T} (strict : bool) (op : vop T) : Prop :=
  match op with
  | OShrinkToFit => False
  | OShrinkTo m => 0 < m
  | OSwapRemove _ => strict = false
  | _ => True
  end.

(** Calls on a [SmallVec] that hold wherever its elements are: a stack, a queue of appended
    elements, random access. *)
Definition calm_small {T} (strict : bool) (op : sop T) : Prop :=
  match op with
  | SInsert _ _ | SRemove _ | STruncate _ | SShrinkToFit | STryMoveToStack => False
  | SShrinkTo m => 0 < m
  | SSwapRemove _ => strict = false
  | _ => True
  end.
(** Calls on a [SmallVec] whose elements are on the heap: [insert], [remove] and [truncate] too. *)
Definition calm_heap {T} (strict : bool) (op : sop T) : Prop :=
  match op with
  | SShrinkToFit | STryMoveToStack => False
  | SShrinkTo m => 0 < m
  | SSwapRemove _ => strict = false
  | _ => True
  end.

(** Calls on a [String]: in the [strict] reading single characters must be ASCII and are not
    inserted.  [split_off] is left out: it does not split (C46). *)
Definition calm_text (strict : bool) (op : top) : Prop :=
  match op with
  | TShrinkToFit | TMutVec _ | TSplitOff _ => False
  | TShrinkTo m => 0 < m
  | TPush c => strict = false \/ c < 128
  | TInsert _ _ => strict = false
  | TExtendChars it _ => strict = false \/ forall c, Some c ∈ it -> c < 128
  | _ => True
  end.
