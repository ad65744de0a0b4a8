(** Specification of vector histories when destructors of elements may panic. *)
From Verif Require Import Base PtrModel SpecVec SpecDrop.

Section spec.
  Context {T : Type} (panics : T -> bool).

  (** A call that would have ended in [o] and had to destroy [ds] on the way.  One panicking
      destructor turns a normal return into a panic.  A second one, or one while the call is
      already unwinding, ends the process. *)
  Definition settle {A} (o : res A) (ds : list T) : res A :=
    match culprits panics ds, o with
    | [], _ => o
    | [_], Ret _ => Panic PDrop
    | _, _ => Abort
    end.

  Context (may_refuse : Prop) (clone : T -> option T).

  (** One call.  Whatever the destructors do, the contents, the values taken in and the values
      destroyed are those of [vspec].  The exception is [clear]: it stops at the first panicking
      destructor and still shows all elements. *)
  Inductive dspec : list T -> vop T -> list T -> res (vret T) -> list T -> list T -> Prop :=
  | d_call xs op ins o xs' ds :
      vspec may_refuse clone xs op ins o xs' ds -> (op = OClear -> culprits panics xs = []) ->
      dspec xs op ins (settle o ds) xs' ds
  | d_clear xs : culprits panics xs <> [] ->
      dspec xs OClear [] (Panic PDrop) xs (up_to panics 1 xs).

  (** A history whose panics are caught. *)
  Inductive dtrace : list T -> list (vop T) -> list T -> list (res (vret T)) -> list T -> list T ->
    Prop :=
  | dt_nil xs : dtrace xs [] [] [] xs []
  | dt_cons xs op ops i1 i2 o outs xs1 xs2 d1 d2 : o <> Abort ->
      dspec xs op i1 o xs1 d1 -> dtrace xs1 ops i2 outs xs2 d2 ->
      dtrace xs (op :: ops) (i1 ++ i2) (o :: outs) xs2 (d1 ++ d2).
End spec.
