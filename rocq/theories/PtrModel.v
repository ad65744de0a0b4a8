(** Model of src/ptr.rs and src/boxed.rs.

    [ScopePtr<T>] and [ScopePtr<[T]>] share one record: a pointer to a sized [T] is a pointer to
    one element.  Casts (ptr.rs 67-95, 125-132, 147-159) only repackage the same fields and are
    the identity here. *)
From Verif Require Export Mem.

(** core: [Result], returned by the [try_] functions of src/ptr.rs. *)
Inductive result (A E : Type) := Ok (a : A) | Err (e : E).
Arguments Ok {A E}. Arguments Err {A E}.

(** src/ptr.rs 169-176: [AllocError], [ArrayAllocError]. *)
Inductive aerr := CapacityOverflow | AllocErr.

(** src/ptr.rs 12-17: [ScopePtr]; [sp_len] is the slice length (1 for a sized value). *)
Record sptr := SPtr { sp_ptr : ptr; sp_len : N; sp_alloc : N; sp_mark : marker }.

Section ptr_model.
  Context `{!Env} {T : Type} `{!Elem T}.
  Notation W := (world T).

  (** [Layout::for_value] of the pointed-to value or slice. *)
  Definition layout_of (p : sptr) : layout := Layout (sp_len p * t_size) t_align.

  (** src/ptr.rs 188-199: [ScopePtr::alloc_layout]; [n] is the length given to the pointer (the
      cast of ptr.rs 261 included). *)
  Definition alloc_layout (l : layout) (n : N) (sel : selector) : M W (option sptr) :=
    a <- alloc_for sel;
    r <- ga_alloc a l;
    match r with
    | Some b => ret (Some (SPtr (Blk b) n a (sel_marker sel)))
    | None => ret None
    end.

  (** src/ptr.rs 181-185: [ScopePtr::alloc].  [*ptr = value] first drops the old, uninitialised
      contents when the type has drop glue.  On [Err] the value is dropped. *)
  Definition sp_alloc_val (x : T) (sel : selector) : M W (result sptr aerr) :=
    r <- on_unwind (alloc_layout (Layout t_size t_align) 1 sel) (drop_val x);
    match r with
    | None => drop_val x ;; ret (Err AllocErr)
    | Some p =>
        (if t_needs_drop then drop_at (sp_ptr p) 0 else ret tt) ;;
        write_at (sp_ptr p) 0 x ;;
        ret (Ok p)
    end.

  (** src/ptr.rs 241-245: [ScopePtr::dealloc]. *)
  Definition sp_dealloc (p : sptr) : M W unit := ga_dealloc (sp_alloc p) (sp_ptr p) (layout_of p).

  (** src/ptr.rs 33-41: [Drop for ScopePtr]: drop the value(s) in place, then deallocate. *)
  Definition sp_drop (p : sptr) : M W unit :=
    drop_slice (sp_ptr p) 0 (N.to_nat (sp_len p)) ;; sp_dealloc p.

  (** src/ptr.rs 202-208: [ScopePtr::into_inner].  [self] is taken by value and goes out of scope
      at the end, so its [Drop] runs after the explicit [dealloc]. *)
  Definition sp_into_inner (p : sptr) : M W T :=
    v <- read_at (sp_ptr p) 0;
    sp_dealloc p ;;
    sp_drop p ;;
    ret v.

  (** src/ptr.rs 19-31: dereference. *)
  Definition sp_deref (p : sptr) : M W T := read_at (sp_ptr p) 0.
  (** src/ptr.rs 26-31: [deref_mut], used to write the value without dropping the old one. *)
  Definition sp_assign (p : sptr) (x : T) : M W unit := write_at (sp_ptr p) 0 x.

  (** src/ptr.rs 216-223, cast to a slice of length 0. *)
  Definition sp_dangling (a : N) (m : marker) : sptr := SPtr Dangling 0 a m.

  (** src/ptr.rs 251-262: [ScopePtr::alloc_array_uninit]. *)
  Definition alloc_array_uninit (n : N) (sel : selector) : M W (result sptr aerr) :=
    match layout_array n with
    | None => ret (Err CapacityOverflow)
    | Some l =>
        r <- alloc_layout l n sel;
        match r with Some p => ret (Ok p) | None => ret (Err AllocErr) end
    end.

  (** src/ptr.rs 269-284: [ScopePtr::realloc_array]; [self] is returned updated. *)
  Definition realloc_array (p : sptr) (n : N) : M W (result sptr aerr) :=
    s <- umul n t_size;
    r <- ga_realloc (sp_alloc p) (sp_ptr p) (layout_of p) s;
    match r with
    | None => ret (Err AllocErr)
    | Some b => ret (Ok (SPtr (Blk b) n (sp_alloc p) (sp_mark p)))
    end.

  (** [Result::unwrap]. *)
  Definition unwrap {S A E} (r : result A E) : M S A :=
    match r with Ok a => ret a | Err _ => throw PUnwrap end.

  (** src/boxed.rs 14-16: [Box::new_with]. *)
  Definition box_new_with (x : T) (m : marker) : M W sptr :=
    r <- sp_alloc_val x (Selector m t_name); unwrap r.
  (** src/boxed.rs 10-12: [Box::new]. *)
  Definition box_new (x : T) : M W sptr := box_new_with x MNone.
  (** src/boxed.rs 18-20: [Box::into_inner]. *)
  Definition box_into_inner (p : sptr) : M W T := sp_into_inner p.
  (** [Drop for Box] is the drop of its only field (src/boxed.rs 7). *)
  Definition box_drop (p : sptr) : M W unit := sp_drop p.
End ptr_model.
