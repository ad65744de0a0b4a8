(** Specification of a call that destroys values one after the other and gives up as soon as one of
    their destructors panics. *)
From Verif Require Import Base SpecDrop.

Section spec_stop.
  Context {T : Type} (panics : T -> bool).

  (** The call ended in [o] and destroyed [ds]: either no destructor panicked and the panic of the
      call, if there is one, is not that of a destructor; or the last value destroyed is the only
      culprit and its panic is what the call ends in. *)
  Definition stops_at {A} (o : res A) (ds : list T) : Prop :=
    (culprits panics ds = [] /\ ((exists a, o = Ret a) \/ exists p, o = Panic p /\ p <> PDrop)) \/
    (o = Panic PDrop /\ exists ds' x, ds = ds' ++ [x] /\ culprits panics ds = [x]).
End spec_stop.
