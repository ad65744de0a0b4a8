(** Ways of using [Arc] for which the full behaviour holds.  Conditions on the calls a program makes
    and the choices of the environment, not on what the code does. *)
From Verif Require Export SpecArc.

Section plain.
  Context {T : Type}.
  Implicit Types (ls : list (alabel T)).

  (** [make_mut] is not called, and there are too few steps to count beyond [isize::MAX]. *)
  Definition plain_arc ls : Prop := (forall i, LBeginX i CMakeMut ∉ ls) /\ llen ls + 8 <= isize_max.
  (** No handle is given to [mem::forget]. *)
  Definition no_forget ls : Prop := forall i, LBeginX i CForget ∉ ls.
  (** No [Weak] is made. *)
  Definition no_downgrade ls : Prop := forall i, LBeginS i CDowngrade ∉ ls.
  (** No destructor panics. *)
  Definition no_panic ls : Prop := forall i, LEx i true ∉ ls.

  (** The value written last, by [get_mut] references that ended. *)
  Fixpoint latest (x : T) ls : T :=
    match ls with
    | [] => x
    | LEndMut _ y :: ls => latest y ls
    | _ :: ls => latest x ls
    end.
End plain.

(** No call is in progress. *)
Definition quiet_arc (hs : list ahandle) : Prop := Forall (fun h => h = held \/ h = gone) hs.
Definition is_held (h : ahandle) : bool := match h with held => true | _ => false end.
