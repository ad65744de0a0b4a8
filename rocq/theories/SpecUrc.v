(** Vocabulary for the statements on [Urc]: which handles there are, what happened. *)
From Verif Require Export UrcModel.

(** A [Urc] in the hands of the program: not in use, lent out, or in a call that has not given it up. *)
Definition is_urc (p : upc) : bool :=
  match p with
  | UHeld | UMut | UDrop | UCas | ULock | ULoadS | UStore0 | UM0 | UM1 | UMClone | UMNewC
  | UEnvAdd | UEnvAlloc | UMLoad | UMInc _ | UMWeak | UMTake => true
  | _ => false
  end.
(** A [Weak] in the hands of the program. *)
Definition is_weak (p : upc) : bool := match p with WHeld | WDrop => true | _ => false end.
(** Handles that were given away without being dropped. *)
Definition is_urc_lost (p : upc) : bool := match p with UForgot | UFence => true | _ => false end.
Definition is_weak_lost (p : upc) : bool := match p with WForgot => true | _ => false end.
Definition is_gone (p : upc) : bool := match p with UGone => true | _ => false end.

(** Handles of fence [f] in a state described by [q]. *)
Definition onf (f : nat) (q : upc -> bool) (h : uhandle) : bool := (u_fence h =? f)%nat && q (u_pc h).

(** Calls by which a value is shared: everything but [try_unwrap] and [make_mut]. *)
Definition sharing {T} (l : ulabel T) : bool :=
  match l with LBegin _ CUnwrap | LBegin _ CMakeMut => false | _ => true end.

Section events.
  Context {T : Type}.
  Implicit Types (c : uconf T) (e : uevent T).
  Definition is_bad e : bool := match e with UBad => true | _ => false end.
  Definition is_ff (f : nat) e : bool := match e with UFreeFence g => (g =? f)%nat | _ => false end.
  Definition is_fm e : bool := match e with UFreeMaster => true | _ => false end.
  Definition is_destroy e : bool := match e with UDestroy => true | _ => false end.
  (** [make_mut] decides to move the value out, or the exchange in [try_unwrap] succeeds. *)
  Definition is_zeroing e : bool := match e with UMoving | UCasOk => true | _ => false end.
  Definition is_env_fail e : bool := match e with UEnvFail => true | _ => false end.
  Definition is_fence_dropped e : bool := match e with UFenceDropped => true | _ => false end.
  Definition is_panic e : bool := match e with UPanic => true | _ => false end.
  Definition happened (f : uevent T -> bool) c : N := cnt f (u_log c).

  Definition count (f : nat) (q : upc -> bool) c : N := cnt (onf f q) (u_hs c).
  (** The fences with a [Urc], and with only [Weak]s or forgotten handles. *)
  Definition has_urc (f : nat) c : bool := 0 <? count f is_urc c.
  Definition fence_live c (f : nat) : bool :=
    match u_fences c !! f with Some x => negb (f_freed x) && has_urc f c | None => false end.
  Definition fence_orphan c (f : nat) : bool :=
    match u_fences c !! f with Some x => negb (f_freed x) && negb (has_urc f c) | None => false end.
  Definition fences_that (q : nat -> bool) c : N := cnt q (seq 0 (length (u_fences c))).

  (** [i] is the only [Urc]; the only handle at all (nothing else is even in the course of being dropped,
      but for the last look at the counters). *)
  Definition only_urc (i : nat) c : Prop :=
    forall j h, j <> i -> u_hs c !! j = Some h -> is_urc (u_pc h) = false.
  Definition only_handle (i : nat) c : Prop :=
    forall j h, j <> i -> u_hs c !! j = Some h -> u_pc h = UGone \/ u_pc h = UDLoadW.
  (** No call is in progress. *)
  Definition quiet c : Prop := Forall (fun h => busy (u_pc h) = false /\ u_pc h <> UMClone) (u_hs c).
  Definition all_gone c : Prop := Forall (fun h => u_pc h = UGone) (u_hs c).

  (** The value after the writes through mutable references made in a run. *)
  Fixpoint last_written (x : T) (ls : list (ulabel T)) : T :=
    match ls with
    | [] => x
    | LEndMut _ y :: ls => last_written y ls
    | _ :: ls => last_written x ls
    end.

  Context {PR : Profile}.
  (** [c] is reached from [Urc::new(x)] by the steps [ls], fewer than 2^64 - 8 of them. *)
  Definition urc_reached (x : T) (ls : list (ulabel T)) c : Prop :=
    llen ls + 8 <= usize_max /\ urun ls (urc_init x) = Some c.
End events.

(** Whole calls on handle [i], not interrupted: a drop in [n] steps, [envelop] with [receive]. *)
Definition s_steps {T} (i n : nat) : list (ulabel T) := replicate n (LStep i false).
Definition s_drop {T} (i n : nat) : list (ulabel T) := LBegin i CDrop :: s_steps i n.
Definition s_env {T} (i : nat) : list (ulabel T) := LBegin i CEnvelop :: s_steps i 2.
