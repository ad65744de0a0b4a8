(** Model of src/arc.rs as a transition system over the atomic steps of all calls in progress.

    One allocation is followed: the atomics, the value, the [Arc] handles pointing to it and the calls
    in progress on each of them.  A handle is used according to the borrow rules of Rust: any number
    of calls taking [&Arc] may be in progress on the same handle (in any threads), and a call taking
    [&mut Arc] or [Arc] only when no other call on that handle is in progress.

    Simplifications: memory is sequentially consistent (the orderings named in the code are not
    modelled, each atomic access is one step); [Arc::new] (135-150, one allocation and one write, as
    for [Rc]) is not a step of this system, it makes the initial configuration; the new allocation
    made by [make_mut] is another instance of this system; [new_uninit], [pin], [downcast]
    (151-170, 361-375), formatting, comparisons and hashing (377-464, they only dereference) add
    nothing to it.  [Envelop::envelop] (543-551) is [clone].  [Weak] (33) has neither [Drop] nor
    [Clone] nor [upgrade]: dropping one is dropping a [ManuallyDrop], which does nothing but be recorded
    in the log here. *)
From Verif Require Export Base Count.

(** src/arc.rs 15: [MAX_REFCOUNT] is [isize::MAX]; [usize::MAX] marks a locked counter (18-19, 113). *)
Definition max_refcount : N := 2 ^ 63 - 1.

(** Calls in progress taking [&Arc]: the next atomic step to be made.
    [SClone0], [SClone1]: [clone], before the [fetch_add] (480) and before the check (491).
    [SDown0], [SDown v]: [downgrade], before the load (260) and at the head of the loop (261) with the
    counter value [v] last read.  [SRead]: a shared reference to the value is in use (380-383). *)
Inductive spc := SClone0 | SClone1 (old : N) | SRead | SDown0 | SDown (v : N).

(** State of a handle and, if a call taking [&mut Arc] or [Arc] is in progress, its next step.
    [XHeld]: none in progress.  [XMut]: a mutable reference to the value is in use.  [XGone]: the
    handle is gone (dropped, unwrapped or forgotten).
    [XDrop], [XDestroy], [XLoadW], [XFree]: lines 505, 352, 355, 356.
    [XCas], [XTake], [XULoadW], [XUFree]: lines 228, 237, 240, 241.
    [XLock], [XLoadS], [XUnlock]: lines 324, 330, 335.
    [XM0], [XM1], [XMInc], [XMZero], [XMTake], [XMNew]: lines 176, 177, 193, 197, 200, 202;
    [XMClone], [XMNewC]: lines 208/215, 209/216; [XDropMoved]: the assignment of line 202 drops the
    old handle (line 505 with [strong] zero). *)
Inductive xpc :=
  | XHeld | XMut | XGone
  | XDrop | XDestroy | XLoadW | XFree
  | XCas | XTake | XULoadW | XUFree
  | XLock | XLoadS | XUnlock (unique : bool)
  | XM0 | XM1 (strong : N) | XMInc (v : N) | XMZero | XMTake | XMNew | XMClone | XMNewC | XDropMoved.

(** src/arc.rs 28: an [Arc], with the calls in progress on it. *)
Record ahandle := AHandle { h_ex : xpc; h_sh : list spc }.
Notation held := (AHandle XHeld []).
Notation gone := (AHandle XGone []).

(** State of the field [data] (src/arc.rs 22): there, destroyed (352), moved out (200, 237). *)
Inductive dstate := Alive | Destroyed | Taken.

(** What happens in a run: the value is destroyed ([ADestroy]) or moved out to the caller ([ATake]) or
    moved into another allocation ([AMove]); the memory is freed; a [Weak] is handed out, is made
    and lost inside [make_mut], or is dropped ([AWeakDrop]); a handle is forgotten ([mem::forget]); a [clone] panics after having
    counted; [ALostValue]: the allocator refuses in [make_mut] after the value was moved out; results of
    calls; [ABad]: an access to freed memory or to a value that is not there. *)
Inductive aevent_ (T : Type) :=
  | ADestroy | ATake (x : T) | AMove | AFree | AWeak | ALostWeak | AForget | AClonePanic | ACloneOk
  | ADropPanic | AAllocPanic | ALostValue | AUserPanic | AOverflow
  | ARead (x : T) | AStrong (n : N) | AWeakCount (n : N) | AUnwrapErr | AGetMut (b : bool) | ABad
  | AWeakDrop.
Arguments ADestroy {T}. Arguments ATake {T}. Arguments AMove {T}. Arguments AFree {T}.
Arguments AWeak {T}. Arguments ALostWeak {T}. Arguments AForget {T}. Arguments AClonePanic {T}.
Arguments ACloneOk {T}. Arguments ADropPanic {T}. Arguments AAllocPanic {T}. Arguments AUserPanic {T}.
Arguments AOverflow {T}. Arguments ALostValue {T}. Arguments ARead {T}. Arguments AStrong {T}. Arguments AWeakCount {T}.
Arguments AUnwrapErr {T}. Arguments AGetMut {T}. Arguments ABad {T}.
Arguments AWeakDrop {T}.

(** [downgrade] has given out a [Weak] (src/arc.rs 259-267). *)
Definition is_weak_given {T} (e : aevent_ T) : bool := match e with AWeak => true | _ => false end.
(** A [Weak] was dropped (src/arc.rs 33). *)
Definition is_weak_drop {T} (e : aevent_ T) : bool := match e with AWeakDrop => true | _ => false end.

(** src/arc.rs 17-23: [ArcInner], whether it is freed, the handles, and the log. *)
Record aconf (T : Type) := AConf {
  a_strong : N; a_weak : N; a_val : T; a_data : dstate; a_freed : bool;
  a_hs : list ahandle; a_log : list (aevent_ T) }.
Arguments AConf {T}. Arguments a_strong {T}. Arguments a_weak {T}. Arguments a_val {T}.
Arguments a_data {T}. Arguments a_freed {T}. Arguments a_hs {T}. Arguments a_log {T}.

(** Calls that can be begun. *)
Inductive scall := CClone | CRead | CDowngrade.
(** [Drop] (src/arc.rs 499-541), [try_unwrap] (224-249), [get_mut] (296-340), [make_mut] (172-220)
    and [mem::forget]. *)
Inductive xcall := CDrop | CUnwrap | CGetMut | CMakeMut | CForget.

(** Who makes the next step.  The flag of [LSh] and [LEx] is the choice of the environment: a spurious
    failure of [compare_exchange_weak], a panic of the destructor or of [T::clone], a refusal of the
    allocator. *)
Inductive alabel (T : Type) :=
  | LBeginS (i : nat) (c : scall) | LBeginX (i : nat) (c : xcall)
  | LSh (i k : nat) (flag : bool) | LEx (i : nat) (flag : bool)
  | LEndMut (i : nat) (y : T) | LCounts (i : nat) | LWeakDrop.
Arguments LBeginS {T}. Arguments LBeginX {T}. Arguments LSh {T}. Arguments LEx {T}.
Arguments LEndMut {T}. Arguments LCounts {T}. Arguments LWeakDrop {T}.

Section arc.
  Context {PR : Profile} {T : Type}.
  Notation conf := (aconf T).
  Implicit Types (c : conf) (h : ahandle).

  (** Write the counter [strong] (src/arc.rs 20). *)
  Definition set_strong (n : N) c : conf :=
    AConf n (a_weak c) (a_val c) (a_data c) (a_freed c) (a_hs c) (a_log c).
  (** Write the counter [weak] (src/arc.rs 21). *)
  Definition set_weak (n : N) c : conf :=
    AConf (a_strong c) n (a_val c) (a_data c) (a_freed c) (a_hs c) (a_log c).
  (** Write the value (src/arc.rs 22). *)
  Definition set_val (y : T) c : conf :=
    AConf (a_strong c) (a_weak c) y (a_data c) (a_freed c) (a_hs c) (a_log c).
  (** The value is destroyed or moved out (src/arc.rs 200, 237, 352). *)
  Definition set_data (d : dstate) c : conf :=
    AConf (a_strong c) (a_weak c) (a_val c) d (a_freed c) (a_hs c) (a_log c).
  (** The memory is released (src/arc.rs 241, 356). *)
  Definition set_freed c : conf :=
    AConf (a_strong c) (a_weak c) (a_val c) (a_data c) true (a_hs c) (a_log c).
  (** Replace the table of handles (no counterpart in src/arc.rs). *)
  Definition set_hs (hs : list ahandle) c : conf :=
    AConf (a_strong c) (a_weak c) (a_val c) (a_data c) (a_freed c) hs (a_log c).
  (** Add to the log (no counterpart in src/arc.rs). *)
  Definition say (e : aevent_ T) c : conf :=
    AConf (a_strong c) (a_weak c) (a_val c) (a_data c) (a_freed c) (a_hs c) (a_log c ++ [e]).

  (** Replace the state of one handle (no counterpart in src/arc.rs). *)
  Definition set_h (i : nat) (h : ahandle) c : conf := set_hs (<[i := h]> (a_hs c)) c.
  (** The call in progress on handle [i] continues with [x] (it is the only one on that handle). *)
  Definition goto (i : nat) (x : xpc) c : conf := set_h i (AHandle x []) c.
  (** The [k]-th shared call of handle [i] (state [h]) continues with [s] or is over. *)
  Definition sgoto (i : nat) h (k : nat) (s : spc) c : conf :=
    set_h i (AHandle (h_ex h) (<[k := s]> (h_sh h))) c.
  (** The shared call is over (no counterpart in src/arc.rs). *)
  Definition send_ (i : nat) h (k : nat) c : conf :=
    set_h i (AHandle (h_ex h) (delete k (h_sh h))) c.

  (** [fetch_add] and [increment] wrap (src/arc.rs 480, 193). *)
  Definition wadd (a b : N) : N := (a + b) mod 2 ^ 64.
  (** [fetch_sub] wraps (src/arc.rs 505). *)
  Definition wsub (a b : N) : N := (a + 2 ^ 64 - b) mod 2 ^ 64.

  (** Accesses: to the memory of [ArcInner]; to the value. *)
  Definition mem_ok c : bool := negb (a_freed c).
  (** An access to the value (src/arc.rs 22) is fine: it is there and the memory is not released. *)
  Definition val_ok c : bool :=
    negb (a_freed c) && match a_data c with Alive => true | _ => false end.
  (** A step with an access; [ABad] is logged when the access is not fine (no counterpart in
      src/arc.rs). *)
  Definition checked (b : bool) c c' : conf := if b then c' else say ABad c.

  (** *** Calls taking [&Arc] *)
  Definition begin_shared (c0 : scall) : spc :=
    match c0 with CClone => SClone0 | CRead => SRead | CDowngrade => SDown0 end.

  (** One step of [clone] (src/arc.rs 466-497), [deref] (380-383) or [downgrade] (259-267). *)
  Definition step_shared (i : nat) h (k : nat) (s : spc) (flag : bool) c : conf :=
    match s with
    (* src/arc.rs 480: [fetch_add(1)] *)
    | SClone0 => checked (mem_ok c) c (sgoto i h k (SClone1 (a_strong c)) (set_strong (wadd (a_strong c) 1) c))
    (* src/arc.rs 491-495: panic beyond [MAX_REFCOUNT], else a new handle *)
    | SClone1 old =>
        if max_refcount <? old then say AClonePanic (send_ i h k c)
        else let c' := send_ i h k c in say ACloneOk (set_hs (a_hs c' ++ [held]) c')
    (* src/arc.rs 380-383: the value is looked at; [flag]: for the last time *)
    | SRead =>
        checked (val_ok c) c (if flag then say (ARead (a_val c)) (send_ i h k c) else c)
    (* src/arc.rs 260 *)
    | SDown0 => checked (mem_ok c) c (sgoto i h k (SDown (a_weak c)) c)
    (* src/arc.rs 262-265: [sync_lock] reloads a locked value; then [try_increment] (87-95), whose
       failure leaves the remembered value as it is *)
    | SDown v =>
        checked (mem_ok c) c
          (if v =? usize_max then sgoto i h k (SDown (a_weak c)) c
           else if negb flag && (a_weak c =? v)
                then say AWeak (send_ i h k (set_weak (v + 1) c)) else c)
    end.

  (** *** Calls taking [&mut Arc] or [Arc] *)
  Definition begin_excl (c0 : xcall) : xpc :=
    match c0 with
    | CDrop => XDrop | CUnwrap => XCas | CGetMut => XLock | CMakeMut => XM0 | CForget => XGone
    end.

  (** One step of [drop] (src/arc.rs 499-541, 349-358), [try_unwrap] (224-249), [get_mut] (296-340)
      or [make_mut] (172-220). *)
  Definition step_excl (i : nat) (x : xpc) (flag : bool) c : option conf :=
    match x with
    | XHeld | XMut | XGone => None
    (* src/arc.rs 505-507: [fetch_sub(1) != 1] *)
    | XDrop | XDropMoved =>
        Some (checked (mem_ok c) c
          (goto i (if a_strong c =? 1 then XDestroy else XGone) (set_strong (wsub (a_strong c) 1) c)))
    (* src/arc.rs 352: the destructor may panic; the rest of [drop_slow] is skipped then *)
    | XDestroy =>
        Some (checked (val_ok c) c
          (if flag then say ADropPanic (say ADestroy (goto i XGone (set_data Destroyed c)))
           else say ADestroy (goto i XLoadW (set_data Destroyed c))))
    (* src/arc.rs 355 *)
    | XLoadW => Some (checked (mem_ok c) c (goto i (if a_weak c =? 0 then XFree else XGone) c))
    (* src/arc.rs 356: the pointer is dropped; [ArcInner] has no drop glue, so this is the free *)
    | XFree => Some (checked (mem_ok c) c (say AFree (goto i XGone (set_freed c))))
    (* src/arc.rs 225-233: [compare_exchange(1, 0)] *)
    | XCas =>
        Some (checked (mem_ok c) c
          (if a_strong c =? 1 then goto i XTake (set_strong 0 c) else say AUnwrapErr (goto i XHeld c)))
    (* src/arc.rs 237 *)
    | XTake => Some (checked (val_ok c) c (say (ATake (a_val c)) (goto i XULoadW (set_data Taken c))))
    (* src/arc.rs 240 *)
    | XULoadW => Some (checked (mem_ok c) c (goto i (if a_weak c =? 0 then XUFree else XGone) c))
    (* src/arc.rs 241 *)
    | XUFree => Some (checked (mem_ok c) c (say AFree (goto i XGone (set_freed c))))
    (* src/arc.rs 321-325: [compare_exchange(0, usize::MAX)] *)
    | XLock =>
        Some (checked (mem_ok c) c
          (if a_weak c =? 0 then goto i XLoadS (set_weak usize_max c)
           else say (AGetMut false) (goto i XHeld c)))
    (* src/arc.rs 330 *)
    | XLoadS => Some (checked (mem_ok c) c (goto i (XUnlock (a_strong c =? 1)) c))
    (* src/arc.rs 335-336, 297-306 *)
    | XUnlock u =>
        Some (checked (mem_ok c) c
          (say (AGetMut u) (goto i (if u then XMut else XHeld) (set_weak 0 c))))
    (* src/arc.rs 176 *)
    | XM0 => Some (checked (mem_ok c) c (goto i (XM1 (a_strong c)) c))
    (* src/arc.rs 177-217 *)
    | XM1 s =>
        Some (checked (mem_ok c) c
          (goto i (if s =? 1 then if a_weak c =? 0 then XMut else XMInc (a_weak c) else XMClone) c))
    (* src/arc.rs 193 and 74-84: [increment], remembering the value read on failure; 92: [current + 1] *)
    | XMInc v =>
        Some (checked (mem_ok c) c
          (if e_checks && (v =? usize_max) then say AOverflow (goto i XHeld c)
           else if negb flag && (a_weak c =? v) then say ALostWeak (goto i XMZero (set_weak (wadd v 1) c))
           else goto i (XMInc (a_weak c)) c))
    (* src/arc.rs 197 and 105-109: [compare_exchange_weak(1, 0)] *)
    | XMZero =>
        Some (checked (mem_ok c) c
          (if negb flag && (a_strong c =? 1) then goto i XMTake (set_strong 0 c) else goto i XMClone c))
    (* src/arc.rs 200 *)
    | XMTake => Some (checked (val_ok c) c (say AMove (goto i XMNew (set_data Taken c))))
    (* src/arc.rs 202: [Arc::new(data)]; if the allocator refuses, it panics and [this] stays *)
    | XMNew => Some (if flag then say ALostValue (goto i XHeld c) else goto i XDropMoved c)
    (* src/arc.rs 208, 215: [T::clone] may panic *)
    | XMClone => Some (checked (val_ok c) c (if flag then say AUserPanic (goto i XHeld c) else goto i XMNewC c))
    (* src/arc.rs 209, 216: [Arc::new(clone)], then the assignment drops the old handle *)
    | XMNewC => Some (if flag then say AAllocPanic (goto i XHeld c) else goto i XDrop c)
    end.

  (** *** Steps *)
  Definition astep (l : alabel T) c : option conf :=
    match l with
    | LBeginS i c0 =>
        match a_hs c !! i with
        | Some (AHandle XHeld sh) => Some (set_h i (AHandle XHeld (sh ++ [begin_shared c0])) c)
        | _ => None
        end
    | LBeginX i c0 =>
        match a_hs c !! i with
        | Some (AHandle XHeld []) =>
            let c' := goto i (begin_excl c0) c in
            Some (match c0 with CForget => say AForget c' | _ => c' end)
        | _ => None
        end
    | LSh i k flag =>
        match a_hs c !! i with
        | Some h => match h_sh h !! k with Some s => Some (step_shared i h k s flag c) | None => None end
        | None => None
        end
    | LEx i flag =>
        match a_hs c !! i with Some h => step_excl i (h_ex h) flag c | None => None end
    (* the mutable reference is used to write [y] and ends *)
    | LEndMut i y =>
        match a_hs c !! i with
        | Some (AHandle XMut []) => Some (checked (val_ok c) c (set_val y (goto i XHeld c)))
        | _ => None
        end
    (* src/arc.rs 270-280: [strong_count], [weak_count] (zero when locked) *)
    | LCounts i =>
        match a_hs c !! i with
        | Some (AHandle XHeld _) =>
            Some (checked (mem_ok c) c
              (say (AWeakCount (if a_weak c =? usize_max then 0 else a_weak c))
                (say (AStrong (a_strong c)) c)))
        | _ => None
        end
    (* src/arc.rs 33: one of the [Weak]s handed out is dropped, which runs no code *)
    | LWeakDrop =>
        if cnt is_weak_drop (a_log c) <? cnt is_weak_given (a_log c) then Some (say AWeakDrop c) else None
    end.

  (** A run: steps of all threads in the order in which they happen (no counterpart in src/arc.rs).
      *)
  Fixpoint arun (ls : list (alabel T)) c : option conf :=
    match ls with
    | [] => Some c
    | l :: ls => match astep l c with Some c' => arun ls c' | None => None end
    end.

  (** What [Arc::new(x)] returns (135-150). *)
  Definition arc_init (x : T) : conf := AConf 1 0 x Alive false [held] [].
End arc.
