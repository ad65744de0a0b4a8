(** Vocabulary for the statements on [Arc]: counting handles, calls and events. *)
From Verif Require Export ArcModel Count.

(** A handle counts until its drop, unwrapping or moving out has taken effect. *)
Definition owns_x (x : xpc) : bool :=
  match x with
  | XGone | XDestroy | XLoadW | XFree | XTake | XULoadW | XUFree | XMTake | XMNew | XDropMoved => false
  | _ => true
  end.
Definition is_clone1 (s : spc) : bool := match s with SClone1 _ => true | _ => false end.
(** The handle and the clones of it that were counted but not handed out yet. *)
Definition own (h : ahandle) : N := (if owns_x (h_ex h) then 1 else 0) + cnt is_clone1 (h_sh h).
Definition owners (hs : list ahandle) : N := sumN own hs.

Section events.
  Context {T : Type}.
  Implicit Types (c : aconf T) (e : aevent_ T).
  Definition is_destroy e : bool := match e with ADestroy => true | _ => false end.
  Definition is_out e : bool := match e with ATake _ | AMove => true | _ => false end.
  Definition is_take e : bool := match e with ATake _ => true | _ => false end.
  Definition is_free e : bool := match e with AFree => true | _ => false end.
  Definition is_weak_made e : bool := match e with AWeak | ALostWeak => true | _ => false end.
  Definition is_leak e : bool := match e with AForget | AClonePanic => true | _ => false end.
  Definition is_forget e : bool := match e with AForget => true | _ => false end.
  Definition is_clone_panic e : bool := match e with AClonePanic => true | _ => false end.
  Definition is_drop_panic e : bool := match e with ADropPanic => true | _ => false end.
  Definition is_bad e : bool := match e with ABad => true | _ => false end.
  Definition is_lost e : bool := match e with ALostValue => true | _ => false end.
  Definition is_overflow e : bool := match e with AOverflow => true | _ => false end.
  Definition happened (f : aevent_ T -> bool) c : N := cnt f (a_log c).

  (** The [Weak]s handed out and not yet dropped. *)
  Definition weaks c : N := happened is_weak_given c - happened is_weak_drop c.

  (** Every call has finished and every handle is gone. *)
  Definition all_gone c : Prop := Forall (fun h => h = gone) (a_hs c).
  (** Handle [i] is the only one left and no other call is in progress. *)
  Definition alone (i : nat) c : Prop :=
    forall j h, j <> i -> a_hs c !! j = Some h -> h = gone.

  Context {PR : Profile}.
  (** [c] is reached from [Arc::new(x)] by the steps [ls] (fewer than 2^64 - 8 of them, so that no
      counter can overflow; see [C60_count_refuted] for what happens otherwise). *)
  Definition arc_reached (x : T) (ls : list (alabel T)) c : Prop :=
    llen ls + 8 <= usize_max /\ arun ls (arc_init x) = Some c.
End events.
