(** Ways of using [Urc] for which the full behaviour holds: conditions on the calls a program makes. *)
From Verif Require Export SpecUrc.

(** No handle is given away without being dropped ([mem::forget], [try_into_fence]). *)
Definition keeping {T} (l : ulabel T) : bool :=
  match l with LCall _ CForget | LCall _ CIntoFence | LWForget _ => false | _ => true end.
(** No [Weak] is made and the allocator does not refuse. *)
Definition urcs_only {T} (l : ulabel T) : bool :=
  match l with LCall _ CDowngrade | LStep _ true => false | _ => true end.
