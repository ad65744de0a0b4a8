(** Model of src/urc.rs as a transition system over the shared atomic steps of all calls in progress.

    One value is followed: its [Master], the [Fence]s made for it and the [Urc] and [Weak] handles.
    [Urc] and [Weak] are neither [Send] nor [Sync], so all handles of one fence are used by one thread:
    a call on a handle begins only when no other call on a handle of the same fence is in progress,
    except that [T::clone], which is user code, may use the other handles.  Calls on handles of
    different fences interleave freely.  An envelope (scope.rs 187-227) is the [Urc] inside it:
    receiving moves it, dropping the envelope drops it.

    Simplifications: memory is sequentially consistent, each access to an atomic counter is one step
    and the accesses to the counters of the own fence are joined to it; [Urc::new] (213-239) makes the
    initial configuration; the value allocated by [make_mut] is another instance of this system;
    [new_uninit], [pin] (241-256), [downcast] (420-437, no [Urc<dyn Any>] can be created), formatting,
    comparisons and hashing (548-612, they only dereference) add nothing.  [Fence::into_urc] (96-104)
    needs a [Fence] by value, which only [ScopePtr::into_inner] gives, and that is undefined (C03). *)
From Verif Require Export Base Count.

(** State of a handle and, if a call on it is in progress, its next step.
    [UHeld], [WHeld]: a [Urc], a [Weak] that is not in use.  [UMut]: a mutable reference to the value is in
    use.  [UGone]: the handle is gone.  [UForgot], [WForgot]: it was forgotten ([mem::forget]).
    [UFence]: turned into a pointer to the fence ([try_into_fence]).
    [UDrop], [UDSub], [UDLoadW]: lines 499, 505, 514.
    [UCas], [UTake], [UULoadW], [UUFree]: lines 262, 277, 285, 286.
    [ULock], [ULoadS], [UStore0]: lines 403, 406, 408.
    [UM0], [UM1], [UMLoad], [UMInc], [UMWeak], [UMTake], [UMStore], [UMNew]: lines 323, 327, 356, 357, 358,
    312, 316, 318; [UMClone], [UMNewC]: line 304.
    [UEnvAdd], [UEnvAlloc]: lines 622, 634.
    [WDrop], [WSub], [WLoadS]: lines 528, 533, 536; [WLeaked]: the [Weak] is gone, the counter of its fence
    was not decremented. *)
Inductive upc :=
  | UHeld | UMut | UGone | UForgot | UFence
  | UDrop | UDSub | UDLoadW
  | UCas | UTake | UULoadW | UUFree
  | ULock | ULoadS | UStore0
  | UM0 | UM1 | UMLoad | UMInc (v : N) | UMWeak | UMTake | UMStore | UMNew | UMClone | UMNewC
  | UEnvAdd | UEnvAlloc
  | WHeld | WForgot | WDrop | WSub | WLoadS | WLeaked.

(** An [Urc] or [Weak] (src/urc.rs): the fence it points to and the call in progress. *)
Record uhandle := UH { u_fence : nat; u_pc : upc }.
(** src/urc.rs 38-42: [Fence]; [f_freed]: its memory was released. *)
Record fence := Fence { f_strong : N; f_weak : N; f_freed : bool }.

(** State of the value in [Master] (src/urc.rs 107-117): there, or moved out (277, 312). *)
Inductive udata := UAlive | UMoved.

(** What happens in a run.  [UFreeFence], [UFreeMaster]: memory is released.  [UDestroy]: the destructor of
    the value runs.  [UTook x]: [try_unwrap] gives the value out.  [UMoving], [UCasOk]: [make_mut] decides to
    move the value out, the exchange of [try_unwrap] succeeds: from here on the shared counter of strong
    fences is set to zero.  [UCopied x], [UMovedOut x]: [make_mut] has made its new [Urc] with a clone of [x],
    with [x] itself.  [UEnvFail]: the allocator refuses in [envelop] after the fence was counted.
    [UFenceDropped]: the pointer made by [try_into_fence] is dropped.  [ULost]: the allocator refuses in
    [make_mut] after the value was moved out.  [UPanic]: a debug assertion or overflow check fails.
    [UBad]: an access to freed memory or to a value that is not there. *)
Inductive uevent (T : Type) :=
  | UFreeFence (f : nat) | UFreeMaster | UDestroy | UTook (x : T) | UUnwrapErr | UMoving | UCasOk
  | UCopied (x : T) | UMovedOut (x : T) | UGetMut (b : bool) | URead (x : T)
  | UCounts (strong weak : N) (sole : bool) | UEnvFail | UFenceDropped | UIntoFence (b : bool)
  | ULost | UAllocPanic | UClonePanic | UPanic | UBad.
Arguments UFreeFence {T}. Arguments UFreeMaster {T}. Arguments UDestroy {T}. Arguments UTook {T}.
Arguments UUnwrapErr {T}. Arguments UMoving {T}. Arguments UCasOk {T}. Arguments UCopied {T}.
Arguments UMovedOut {T}. Arguments UGetMut {T}. Arguments URead {T}. Arguments UCounts {T}.
Arguments UEnvFail {T}. Arguments UFenceDropped {T}. Arguments UIntoFence {T}. Arguments ULost {T}.
Arguments UAllocPanic {T}. Arguments UClonePanic {T}. Arguments UPanic {T}. Arguments UBad {T}.

(** src/urc.rs 107-117: [Master] ([u_sf], [u_wf], the value), whether it is freed, fences, handles, log. *)
Record uconf (T : Type) := UConf {
  u_sf : N; u_wf : N; u_val : T; u_data : udata; u_mfreed : bool;
  u_fences : list fence; u_hs : list uhandle; u_log : list (uevent T) }.
Arguments UConf {T}. Arguments u_sf {T}. Arguments u_wf {T}. Arguments u_val {T}. Arguments u_data {T}.
Arguments u_mfreed {T}. Arguments u_fences {T}. Arguments u_hs {T}. Arguments u_log {T}.

(** Calls that are one step for the other threads, and calls of several steps. *)
Inductive ucall1 := CClone | CDowngrade | CRead | CCounts | CForget | CIntoFence.
(** [Drop] (src/urc.rs 496-524), [try_unwrap] (258-295), [get_mut] (380-418), [make_mut] (297-370),
    [envelop] (619-639). *)
Inductive ucalln := CDrop | CUnwrap | CGetMut | CMakeMut | CEnvelop.

(** Who makes the next step.  The flag of [LStep] is the choice of the environment: a refusal of the allocator,
    a panic of [T::clone], a spurious failure of [compare_exchange_weak]. *)
Inductive ulabel (T : Type) :=
  | LCall (i : nat) (c : ucall1) | LBegin (i : nat) (c : ucalln) | LStep (i : nat) (flag : bool)
  | LEndMut (i : nat) (y : T) | LDropFence (i : nat) | LWDrop (i : nat) | LWForget (i : nat).
Arguments LCall {T}. Arguments LBegin {T}. Arguments LStep {T}. Arguments LEndMut {T}.
Arguments LDropFence {T}. Arguments LWDrop {T}. Arguments LWForget {T}.

Section urc.
  Context {PR : Profile} {T : Type}.
  Notation conf := (uconf T).
  Implicit Types (c : conf) (h : uhandle) (f : nat).

  (** Write the counter of strong fences (src/urc.rs 107-117). *)
  Definition set_sf (n : N) c : conf :=
    UConf n (u_wf c) (u_val c) (u_data c) (u_mfreed c) (u_fences c) (u_hs c) (u_log c).
  (** Write the counter of weak fences (src/urc.rs 107-117). *)
  Definition set_wf (n : N) c : conf :=
    UConf (u_sf c) n (u_val c) (u_data c) (u_mfreed c) (u_fences c) (u_hs c) (u_log c).
  (** Write the value (src/urc.rs 107-117). *)
  Definition set_val (y : T) c : conf :=
    UConf (u_sf c) (u_wf c) y (u_data c) (u_mfreed c) (u_fences c) (u_hs c) (u_log c).
  (** The value is moved out (src/urc.rs 277, 312). *)
  Definition set_moved c : conf :=
    UConf (u_sf c) (u_wf c) (u_val c) UMoved (u_mfreed c) (u_fences c) (u_hs c) (u_log c).
  (** The memory of [Master] is released (src/urc.rs 286). *)
  Definition set_mfreed c : conf :=
    UConf (u_sf c) (u_wf c) (u_val c) (u_data c) true (u_fences c) (u_hs c) (u_log c).
  (** Replace the table of fences (no counterpart in src/urc.rs). *)
  Definition set_fences (fs : list fence) c : conf :=
    UConf (u_sf c) (u_wf c) (u_val c) (u_data c) (u_mfreed c) fs (u_hs c) (u_log c).
  (** Replace the table of handles (no counterpart in src/urc.rs). *)
  Definition set_hs (hs : list uhandle) c : conf :=
    UConf (u_sf c) (u_wf c) (u_val c) (u_data c) (u_mfreed c) (u_fences c) hs (u_log c).
  (** Add to the log (no counterpart in src/urc.rs). *)
  Definition say (e : uevent T) c : conf :=
    UConf (u_sf c) (u_wf c) (u_val c) (u_data c) (u_mfreed c) (u_fences c) (u_hs c) (u_log c ++ [e]).

  (** The call on handle [i] goes on with [p] (no counterpart in src/urc.rs). *)
  Definition goto (i : nat) h (p : upc) c : conf := set_hs (<[i := UH (u_fence h) p]> (u_hs c)) c.
  (** A new handle of fence [f] (no counterpart in src/urc.rs). *)
  Definition add_h f (p : upc) c : conf := set_hs (u_hs c ++ [UH f p]) c.
  (** Replace the state of one fence (src/urc.rs 38-42). *)
  Definition set_f f (x : fence) c : conf := set_fences (<[f := x]> (u_fences c)) c.

  (** [fetch_add] and [increment] wrap (src/urc.rs 357, 622). *)
  Definition wadd (a b : N) : N := (a + b) mod 2 ^ 64.
  (** [fetch_sub] wraps (src/urc.rs 505, 533). *)
  Definition wsub (a b : N) : N := (a + 2 ^ 64 - b) mod 2 ^ 64.

  (** A step with an access; [UBad] is logged when the access is not fine (no counterpart in
      src/urc.rs). *)
  Definition checked (b : bool) c c' : conf := if b then c' else say UBad c.
  (** Accesses: to the memory of [Master]; to the value. *)
  Definition mem_ok c : bool := negb (u_mfreed c).
  (** An access to the value (src/urc.rs 107-117) is fine: it is there and the memory is not
      released. *)
  Definition val_ok c : bool := negb (u_mfreed c) && match u_data c with UAlive => true | UMoved => false end.
  (** Access to the memory of a fence. *)
  Definition with_fence f c (k : fence -> conf) : conf :=
    match u_fences c !! f with
    | Some x => if f_freed x then say UBad c else k x
    | None => say UBad c
    end.

  (** src/urc.rs 73-77: [v + 1], checked or wrapping. *)
  Definition inc_strong f (x : fence) c (k : conf -> conf) : conf :=
    if f_strong x + 1 <=? usize_max then k (set_f f (Fence (f_strong x + 1) (f_weak x) (f_freed x)) c)
    else if e_checks then say UPanic c else k (set_f f (Fence 0 (f_weak x) (f_freed x)) c).
  (** src/urc.rs 67-71: the same for the weak counter. *)
  Definition inc_weak f (x : fence) c (k : conf -> conf) : conf :=
    if f_weak x + 1 <=? usize_max then k (set_f f (Fence (f_strong x) (f_weak x + 1) (f_freed x)) c)
    else if e_checks then say UPanic c else k (set_f f (Fence (f_strong x) 0 (f_freed x)) c).
  (** src/urc.rs 86-91: [debug_assert!(v > 0)], then [v - 1]. *)
  Definition dec_strong f (x : fence) c : conf :=
    if 0 <? f_strong x then set_f f (Fence (f_strong x - 1) (f_weak x) (f_freed x)) c
    else if e_checks then say UPanic c else set_f f (Fence usize_max (f_weak x) (f_freed x)) c.
  (** src/urc.rs 79-84: the same for the weak counter. *)
  Definition dec_weak f (x : fence) c (panics k : conf -> conf) : conf :=
    if 0 <? f_weak x then k (set_f f (Fence (f_strong x) (f_weak x - 1) (f_freed x)) c)
    else if e_checks then panics (say UPanic c) else k (set_f f (Fence (f_strong x) usize_max (f_freed x)) c).
  (** [ScopePtr<Fence>] is dropped (ptr.rs 33-41): [Fence] has no drop glue, the memory is released. *)
  Definition free_fence f (x : fence) c : conf :=
    say (UFreeFence f) (set_f f (Fence (f_strong x) (f_weak x) true) c).
  (** [drop_in_place] of a [MaybeDropped<T>], of a [Master<T>], of a [Fence<T>] (urc.rs 512, 517, 531, 537):
      none of these types has drop glue ([ManuallyDrop], atomics, cells), so nothing happens. *)
  Definition drop_in_place c : conf := c.

  (** A call in progress that keeps the thread of the fence occupied. *)
  Definition busy (p : upc) : bool :=
    match p with
    | UHeld | UMut | UGone | UForgot | UFence | UMClone | WHeld | WForgot | WLeaked => false
    | _ => true
    end.
  (** No call is in progress on a handle of fence [f]. *)
  Definition idle f c : bool := negb (existsb (fun h => (u_fence h =? f)%nat && busy (u_pc h)) (u_hs c)).

  (** *** Calls of one step *)
  Definition call1 (i : nat) h (c0 : ucall1) c : conf :=
    let f := u_fence h in
    match c0 with
    (* src/urc.rs 484-493 *)
    | CClone => with_fence f c (fun x => inc_strong f x c (add_h f UHeld))
    (* src/urc.rs 165-173 *)
    | CDowngrade => with_fence f c (fun x => inc_weak f x c (add_h f WHeld))
    (* src/urc.rs 462-476: the shortcut to the value inside the master *)
    | CRead => checked (val_ok c) c (say (URead (u_val c)) c)
    (* src/urc.rs 139-153: [fence_strong_count], [fence_weak_count], [is_sole_strong_fence] *)
    | CCounts => with_fence f c (fun x => checked (mem_ok c) c (say (UCounts (f_strong x) (f_weak x) (u_sf c =? 1)) c))
    | CForget => goto i h UForgot c
    (* src/urc.rs 196-208 *)
    | CIntoFence =>
        with_fence f c (fun x =>
          if (f_strong x =? 1) && (f_weak x =? 0) then say (UIntoFence true) (goto i h UFence c)
          else say (UIntoFence false) c)
    end.

  (** The first step of a call (lines as at [upc]; src/urc.rs 499, 262, 403, 323, 622). *)
  Definition begin_call (c0 : ucalln) : upc :=
    match c0 with
    | CDrop => UDrop | CUnwrap => UCas | CGetMut => ULock | CMakeMut => UM0 | CEnvelop => UEnvAdd
    end.

  (** *** Steps of the other calls *)
  Definition step (i : nat) h (flag : bool) c : option conf :=
    let f := u_fence h in
    let go p := goto i h p in
    match u_pc h with
    | UHeld | UMut | UGone | UForgot | UFence | WHeld | WForgot | WLeaked => None
    (* src/urc.rs 499-503, 521: the last [Urc] without [Weak]s frees the fence, others count down *)
    | UDrop =>
        Some (with_fence f c (fun x =>
          if (f_strong x =? 1) && (f_weak x =? 0) then free_fence f x (go UDSub c)
          else dec_strong f x (go UGone c)))
    (* src/urc.rs 505-511: [fetch_sub(1) == 1]; then the data is "dropped" *)
    | UDSub =>
        Some (checked (mem_ok c) c
          (let c' := set_sf (wsub (u_sf c) 1) c in
           if u_sf c =? 1 then drop_in_place (go UDLoadW c') else go UGone c'))
    (* src/urc.rs 514-516 *)
    | UDLoadW =>
        Some (checked (mem_ok c) c (if u_wf c =? 0 then drop_in_place (go UGone c) else go UGone c))
    (* src/urc.rs 259-273: [compare_exchange(1, 0)]; then the count of the fence *)
    | UCas =>
        Some (with_fence f c (fun x => checked (mem_ok c) c
          (if u_sf c =? 1 then
             let c' := say UCasOk (set_sf 0 c) in
             if f_strong x =? 1 then go UTake c' else say UUnwrapErr (go UHeld c')
           else say UUnwrapErr (go UHeld c))))
    (* src/urc.rs 275-283: the value is read; the fence is freed if there are no [Weak]s *)
    | UTake =>
        Some (with_fence f c (fun x => checked (val_ok c) c
          (let c' := say (UTook (u_val c)) (set_moved c) in
           if f_weak x =? 0 then free_fence f x (go UULoadW c') else go UGone c')))
    (* src/urc.rs 285: [master] is a reference to the field of the fence *)
    | UULoadW =>
        Some (with_fence f c (fun _ => checked (mem_ok c) c (go (if u_wf c =? 0 then UUFree else UGone) c)))
    (* src/urc.rs 286 *)
    | UUFree => Some (with_fence f c (fun _ => checked (mem_ok c) c (say UFreeMaster (go UGone (set_mfreed c)))))
    (* src/urc.rs 400-404: [compare_exchange(0, usize::MAX)] *)
    | ULock =>
        Some (with_fence f c (fun _ => checked (mem_ok c) c
          (if u_wf c =? 0 then go ULoadS (set_wf usize_max c) else say (UGetMut false) (go UHeld c))))
    (* src/urc.rs 406, 412-414: with several strong fences the lock is not released *)
    | ULoadS =>
        Some (with_fence f c (fun _ => checked (mem_ok c) c
          (if u_sf c =? 1 then go UStore0 c else say (UGetMut false) (go UHeld c))))
    (* src/urc.rs 408-411, 381-391 *)
    | UStore0 =>
        Some (with_fence f c (fun x => checked (mem_ok c) c
          (let b := (f_strong x =? 1) && (f_weak x =? 0) in
           say (UGetMut b) (go (if b then UMut else UHeld) (set_wf 0 c)))))
    (* src/urc.rs 323-326, 350, 367-369 *)
    | UM0 =>
        Some (with_fence f c (fun x => checked (mem_ok c) c
          (if u_sf c =? 1 then (if f_weak x =? 0 then say UMoving (go UMLoad c) else go UM1 c)
           else go UMClone c)))
    (* src/urc.rs 327-349 *)
    | UM1 =>
        Some (with_fence f c (fun x => checked (mem_ok c) c
          (if (u_wf c =? 1) && negb (f_strong x =? 1) then go UMClone c else say UMoving (go UMTake c))))
    (* src/urc.rs 356, arc.rs 57-62 *)
    | UMLoad => Some (with_fence f c (fun _ => checked (mem_ok c) c (go (UMInc (u_wf c)) c)))
    (* src/urc.rs 357, arc.rs 74-95 *)
    | UMInc v =>
        Some (with_fence f c (fun _ => checked (mem_ok c) c
          (if e_checks && (v =? usize_max) then say UPanic (go UHeld c)
           else if negb flag && (u_wf c =? v) then go UMWeak (set_wf (wadd v 1) c)
           else go (UMInc (u_wf c)) c)))
    (* src/urc.rs 358-363: the [Weak] bound to [_] is dropped at once (526-546); no [Weak] was counted *)
    | UMWeak =>
        Some (with_fence f c (fun x =>
          if (f_weak x =? 1) && (f_strong x =? 0) then go UMTake c
          else dec_weak f x c (go UHeld) (go UMTake)))
    (* src/urc.rs 312-315: the value is read, the count of the fence becomes zero *)
    | UMTake =>
        Some (with_fence f c (fun x => checked (val_ok c) c
          (go UMStore (set_f f (Fence 0 (f_weak x) (f_freed x)) (set_moved c)))))
    (* src/urc.rs 316 *)
    | UMStore => Some (with_fence f c (fun _ => checked (mem_ok c) c (go UMNew (set_sf 0 c))))
    (* src/urc.rs 318: [Self::new(data)]; then the old [Urc] is dropped *)
    | UMNew => Some (if flag then say ULost (go UHeld c) else say (UMovedOut (u_val c)) (go UDrop c))
    (* src/urc.rs 304: [T::clone], user code *)
    | UMClone =>
        if idle f c then
          Some (checked (val_ok c) c (if flag then say UClonePanic (go UHeld c) else go UMNewC c))
        else None
    (* src/urc.rs 304: [Self::new(clone)]; then the old [Urc] is dropped *)
    | UMNewC => Some (if flag then say UAllocPanic (go UHeld c) else say (UCopied (u_val c)) (go UDrop c))
    (* src/urc.rs 621-622: [fetch_add(1)] *)
    | UEnvAdd => Some (with_fence f c (fun _ => checked (mem_ok c) c (go UEnvAlloc (set_sf (wadd (u_sf c) 1) c))))
    (* src/urc.rs 625-639 *)
    | UEnvAlloc =>
        Some (if flag then say UEnvFail (go UHeld c)
              else let c' := go UHeld c in
                   add_h (length (u_fences c')) UHeld (set_fences (u_fences c' ++ [Fence 1 0 false]) c'))
    (* src/urc.rs 526-545 *)
    | WDrop =>
        Some (with_fence f c (fun x =>
          if (f_weak x =? 1) && (f_strong x =? 0) then drop_in_place (go WSub c)
          else dec_weak f x c (go UGone) (go UGone)))
    (* src/urc.rs 533: [fetch_sub(1) == 1] *)
    | WSub =>
        Some (checked (mem_ok c) c
          (go (if u_wf c =? 1 then WLoadS else WLeaked) (set_wf (wsub (u_wf c) 1) c)))
    (* src/urc.rs 536-538 *)
    | WLoadS =>
        Some (checked (mem_ok c) c (if u_sf c =? 0 then drop_in_place (go WLeaked c) else go WLeaked c))
    end.

  (** A call of one step, the beginning of a longer call, or the next step of one (src/urc.rs, lines
      as at [upc]). *)
  Definition ustep (l : ulabel T) c : option conf :=
    match l with
    | LCall i c0 =>
        match u_hs c !! i with
        | Some (UH f UHeld as h) => if idle f c then Some (call1 i h c0 c) else None
        | _ => None
        end
    | LBegin i c0 =>
        match u_hs c !! i with
        | Some (UH f UHeld as h) => if idle f c then Some (goto i h (begin_call c0) c) else None
        | _ => None
        end
    | LStep i flag => match u_hs c !! i with Some h => step i h flag c | None => None end
    (* the mutable reference is used to write [y] and ends *)
    | LEndMut i y =>
        match u_hs c !! i with
        | Some (UH f UMut as h) => Some (checked (val_ok c) c (set_val y (goto i h UHeld c)))
        | _ => None
        end
    (* the pointer given by [try_into_fence] is dropped (ptr.rs 33-41) *)
    | LDropFence i =>
        match u_hs c !! i with
        | Some (UH f UFence as h) =>
            Some (with_fence f c (fun x => say UFenceDropped (free_fence f x (goto i h UGone c))))
        | _ => None
        end
    | LWDrop i =>
        match u_hs c !! i with
        | Some (UH f WHeld as h) => if idle f c then Some (goto i h WDrop c) else None
        | _ => None
        end
    | LWForget i =>
        match u_hs c !! i with
        | Some (UH f WHeld as h) => Some (goto i h WForgot c)
        | _ => None
        end
    end.

  (** A run: steps of all threads in the order in which they happen (no counterpart in src/urc.rs).
      *)
  Fixpoint urun (ls : list (ulabel T)) c : option conf :=
    match ls with
    | [] => Some c
    | l :: ls => match ustep l c with Some c' => urun ls c' | None => None end
    end.

  (** What [Urc::new(x)] returns (213-239). *)
  Definition urc_init (x : T) : conf := UConf 1 0 x UAlive false [Fence 1 0 false] [UH 0 UHeld] [].
End urc.
