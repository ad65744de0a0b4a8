(** Model of the functions that create shared pointers: src/rc.rs 109-119, src/arc.rs 134-170 and
    src/urc.rs 94-105, 211-256, at the level of memory.  (What happens to the pointers afterwards is
    modelled in RcModel, ArcModel and UrcModel.)  [new_uninit] and [try_new_uninit] (arc.rs 153-160,
    urc.rs 238-246) are [new] and [try_new] of a [MaybeUninit] value, [pin] and [try_pin] (arc.rs
    162-170, urc.rs 248-256) only wrap the pointer. *)
From Verif Require Export RcModel.

(** src/arc.rs: [ArcInner] has the fields of [RcBox] with atomic counters; [rcbox] stands for both. *)
Section arc_new.
  Context {EN : Env} {T : Type} {EL : Elem T}.
  Local Existing Instance rcbox_elem.
  Notation St := (list T * world (rcbox T))%type.

  (** src/arc.rs 140-151: [Arc::try_new]. *)
  Definition arc_try_new (x : T) : M St (result sptr aerr) :=
    let inner := RcBox 1 0 (Val x) in
    on_snd (sp_alloc_val inner (Selector MNone (@t_name T EL))).
  (** src/arc.rs 135-138: [Arc::new]. *)
  Definition arc_new (x : T) : M St sptr := r <- arc_try_new x; unwrap r.
End arc_new.

(** The two kinds of memory an [Urc] uses: src/urc.rs 107-117 [Master] and 38-42 [Fence]. *)
Inductive ublock (T : Type) :=
| UMaster (strong_fence weak_fence : N) (data : mdrop T)
| UFence (strong weak : N) (master : sptr).
Arguments UMaster {T}. Arguments UFence {T}.

(** src/urc.rs 119-125: [Urc]; the shortcut [data] is kept as the master it points into. *)
Record urcp := UrcP { up_fence : sptr; up_data : ptr }.

(** Layouts: [Master<T>] like [RcBox<T>]; [Fence<T>] two words and a [ScopePtr] (pointer, wide
    pointer to the allocator, marker).  Neither has drop glue ([MaybeDropped], [ManuallyDrop]).
    The name of a type is given separately: only the names of [Master<T>], [Fence<T>] and [T] are
    used. *)
Definition master_elem {T} (EL : Elem T) (name : N) : Elem (ublock T) :=
  {| t_size := (16 + @t_size T EL + box_align EL - 1) / box_align EL * box_align EL;
     t_align := box_align EL; t_name := name; t_needs_drop := false;
     t_drop_panics := fun _ => false; t_clone := fun _ => None;
     t_zst := UMaster 0 0 Moved; t_align_pos := box_align_pos EL |}.
(** src/urc.rs 38-42: [Fence<T>] as an element type. *)
Definition fence_elem (T : Type) (name : N) : Elem (ublock T) :=
  {| t_size := 56; t_align := 8; t_name := name; t_needs_drop := false;
     t_drop_panics := fun _ => false; t_clone := fun _ => None;
     t_zst := UMaster 0 0 Moved; t_align_pos := N.lt_0_succ 7 |}.

Section urc_new.
  Context {EN : Env} {T : Type} {EL : Elem T}.
  Context (master_name fence_name : N).
  Notation MEL := (master_elem EL master_name).
  Notation FEL := (fence_elem T fence_name).
  Notation St := (list T * world (ublock T))%type.

  (** src/urc.rs 218-236: [Urc::try_new].  When the second allocation is refused the fence goes out
      of scope; its [ManuallyDrop] keeps the master. *)
  Definition urc_try_new (x : T) : M St (result urcp aerr) :=
    let master := UMaster 1 0 (Val x) in
    r <- on_snd (sp_alloc_val (Elem0:=MEL) master (Selector MNone master_name));
    match r with
    | Err e => ret (Err e)
    | Ok m =>
        let fence := UFence 1 0 m in
        let data := sp_ptr m in
        r <- on_snd (sp_alloc_val (Elem0:=FEL) fence (Selector MNone (@t_name T EL)));
        match r with
        | Err e => ret (Err e)
        | Ok f => ret (Ok (UrcP f data))
        end
    end.
  (** src/urc.rs 213-215: [Urc::new]. *)
  Definition urc_new (x : T) : M St urcp := r <- urc_try_new x; unwrap r.

  (** src/urc.rs 94-105: [Fence::into_urc]; [self] is given by its fields. *)
  Definition fence_into_urc (strong weak : N) (m : sptr) : M St urcp :=
    let data := sp_ptr m in
    f <- on_snd (box_new (Elem0:=FEL) (UFence strong weak m));
    ret (UrcP f data).

  (** src/urc.rs 462-476: [Deref for Urc], through the shortcut. *)
  Definition urc_deref (u : urcp) : M St T :=
    b <- on_snd (read_at (Elem0:=MEL) (up_data u) 0);
    match b with
    | UMaster _ _ (Val x) => ret x
    | _ => undef UseAfterMove
    end.
  (** src/urc.rs 52-55, 62-65, 139-147: [fence_strong_count], [fence_weak_count]. *)
  Definition urc_fence_counts (u : urcp) : M St (N * N) :=
    b <- on_snd (read_at (Elem0:=FEL) (sp_ptr (up_fence u)) 0);
    match b with
    | UFence n k _ => ret (n, k)
    | _ => undef UseAfterMove
    end.
  (** src/urc.rs 149-153: [is_sole_strong_fence], through fence and master. *)
  Definition urc_is_sole (u : urcp) : M St bool :=
    b <- on_snd (read_at (Elem0:=FEL) (sp_ptr (up_fence u)) 0);
    match b with
    | UFence _ _ m =>
        c <- on_snd (read_at (Elem0:=MEL) (sp_ptr m) 0);
        match c with
        | UMaster n _ _ => ret (n =? 1)
        | _ => undef UseAfterMove
        end
    | _ => undef UseAfterMove
    end.
End urc_new.
