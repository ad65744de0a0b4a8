(** Specification of destroying a sequence of values some of whose destructors panic. *)
From Coq Require Import List.
Import ListNotations.

Section spec_drop.
  Context {T : Type} (panics : T -> bool).

  (** The values whose destructor panics. *)
  Definition culprits (l : list T) : list T := filter panics l.

  (** The values up to and including the [k]-th one whose destructor panics; all if there are fewer. *)
  Fixpoint up_to (k : nat) (l : list T) : list T :=
    match l with
    | [] => []
    | x :: l =>
        x :: (if panics x then match k with S (S k) => up_to (S k) l | _ => [] end else up_to k l)
    end.
End spec_drop.
