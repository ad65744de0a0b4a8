(** The heap, the allocator interface and the destructor log.

    Simplifications: an address is a block identifier plus an element index; a block holds
    elements of one type; block identifiers are never reused (so use-after-free is always
    detected); alignment is only a number that has to match on release. *)
From Verif Require Export Base.

(** src/scope.rs 19-33: [AllocMarker]; the [&'static str] is represented by its address. *)
Inductive marker := MNone | MType (addr : N).
Global Instance marker_eq_dec : EqDecision marker. Proof. solve_decision. Defined.

(** src/scope.rs 65-68: [AllocSelector]. *)
Record selector := Selector { sel_marker : marker; sel_ty : N }.
Global Instance selector_eq_dec : EqDecision selector. Proof. solve_decision. Defined.

(** What the outside world decides: the build profile, whether the n-th allocator call (of the
    given size) succeeds, and which allocator a scope selects (src/scope.rs 114-117). *)
Class Env := {
  e_profile :> Profile;
  e_aok : nat -> N -> bool;
  e_alloc_for : N -> selector -> N
}.

(** Element types: size, alignment, address of the type name, destructor, clone. *)
Class Elem (T : Type) := {
  t_size : N;
  t_align : N;
  t_name : N;
  t_needs_drop : bool;           (* [mem::needs_drop]: has drop glue *)
  t_drop_panics : T -> bool;     (* destructor of this value panics *)
  t_clone : T -> option T;       (* [None]: clone panics *)
  t_zst : T;                     (* the value read at zero-sized types *)
  t_align_pos : 0 < t_align
}.

(** [alloc::Layout], as passed to the allocators in src/ptr.rs. *)
Record layout := Layout { l_size : N; l_align : N }.
Global Instance layout_eq_dec : EqDecision layout. Proof. solve_decision. Defined.

(** A live allocation: the allocator it came from, its layout, its slots. *)
Record block (T : Type) := Block {
  b_alloc : N; b_layout : layout; b_slots : list (option T) }.
Arguments Block {T}. Arguments b_alloc {T}. Arguments b_layout {T}. Arguments b_slots {T}.

(** Events seen by scopes and allocators. *)
Inductive aevent :=
| EvSelect (scope : N) (s : selector)
| EvAlloc (a : N) (l : layout) (r : option N)
| EvRealloc (a : N) (b : N) (l : layout) (new_size : N) (r : option N)
| EvDealloc (a : N) (b : N) (l : layout).

(** Memory, the number of allocator calls, the logs and the current scope (src/scope.rs 13-15). *)
Record world (T : Type) := World {
  heap : gmap N (block T);
  next_id : N;
  ncalls : nat;
  events : list aevent;
  drops : list T;
  cur_scope : option N
}.
Arguments World {T}. Arguments heap {T}. Arguments next_id {T}. Arguments ncalls {T}.
Arguments events {T}. Arguments drops {T}. Arguments cur_scope {T}.

(** A raw pointer to the start of an allocation, or [NonNull::dangling]. *)
Inductive ptr := Dangling | Blk (b : N).
Global Instance ptr_eq_dec : EqDecision ptr. Proof. solve_decision. Defined.

(** Replace the heap. *)
Definition set_heap {T} (h : gmap N (block T)) (w : world T) : world T :=
  World h (next_id w) (ncalls w) (events w) (drops w) (cur_scope w).
(** Log a call of a scope or an allocator (src/scope.rs 114-117). *)
Definition add_event {T} (e : aevent) (w : world T) : world T :=
  World (heap w) (next_id w) (ncalls w) (events w ++ [e]) (drops w) (cur_scope w).
(** Log a destructor call. *)
Definition add_drop {T} (x : T) (w : world T) : world T :=
  World (heap w) (next_id w) (ncalls w) (events w) (drops w ++ [x]) (cur_scope w).
(** Replace the current scope (src/scope.rs 127-149). *)
Definition set_cur {T} (c : option N) (w : world T) : world T :=
  World (heap w) (next_id w) (ncalls w) (events w) (drops w) c.

Section mem.
  Context `{!Env} {T : Type} `{!Elem T}.
  Notation W := (world T).

  (** [Layout::array::<T>(n)] (core): [None] when the size exceeds the limit. *)
  Definition layout_array (n : N) : option layout :=
    if n * t_size <=? isize_max + 1 - t_align
    then Some (Layout (n * t_size) t_align) else None.

  (** src/scope.rs 176-178, 156-158, 161-164: [scope::current(&()).alloc_for(sel)]; panics when
      no environment is installed. *)
  Definition alloc_for (sel : selector) : M W N := fun w =>
    match cur_scope w with
    | None => (Panic PNoEnv, w)
    | Some s => (Ret (e_alloc_for s sel), add_event (EvSelect s sel) w)
    end.

  (** [GlobalAlloc::alloc]: [None] is the null pointer. *)
  Definition ga_alloc (a : N) (l : layout) : M W (option N) := fun w =>
    if l_size l =? 0 then (UB ZeroSizeAlloc, w) else
    if e_aok (ncalls w) (l_size l) then
      let b := next_id w in
      (Ret (Some b),
       World (<[b := Block a l (replicate (N.to_nat (l_size l / t_size)) None)]> (heap w))
             (b + 1) (S (ncalls w)) (events w ++ [EvAlloc a l (Some b)]) (drops w) (cur_scope w))
    else
      (Ret None,
       World (heap w) (next_id w) (S (ncalls w)) (events w ++ [EvAlloc a l None])
             (drops w) (cur_scope w)).

  (** [GlobalAlloc::dealloc]. *)
  Definition ga_dealloc (a : N) (p : ptr) (l : layout) : M W unit := fun w =>
    match p with
    | Dangling => (UB Dangling_access, w)
    | Blk b =>
        match heap w !! b with
        | None => (UB UseAfterFree, w)
        | Some blk =>
            if decide (b_alloc blk = a /\ b_layout blk = l) then
              (Ret tt, add_event (EvDealloc a b l) (set_heap (delete b (heap w)) w))
            else (UB BadLayout, w)
        end
    end.

  (** [GlobalAlloc::realloc]: the block moves; a failure leaves the old block alone. *)
  Definition ga_realloc (a : N) (p : ptr) (l : layout) (new_size : N) : M W (option N) := fun w =>
    match p with
    | Dangling => (UB Dangling_access, w)
    | Blk b =>
        match heap w !! b with
        | None => (UB UseAfterFree, w)
        | Some blk =>
            if decide (b_alloc blk = a /\ b_layout blk = l) then
              if new_size =? 0 then (UB ZeroSizeAlloc, w) else
              if isize_max + 1 - l_align l <? new_size then (UB BadLayout, w) else
              if e_aok (ncalls w) new_size then
                let b' := next_id w in
                let n := N.to_nat (new_size / t_size) in
                let s := take n (b_slots blk) ++ replicate (n - length (b_slots blk)) None in
                (Ret (Some b'),
                 World (<[b' := Block a (Layout new_size (l_align l)) s]> (delete b (heap w)))
                       (b' + 1) (S (ncalls w)) (events w ++ [EvRealloc a b l new_size (Some b')])
                       (drops w) (cur_scope w))
              else
                (Ret None,
                 World (heap w) (next_id w) (S (ncalls w))
                       (events w ++ [EvRealloc a b l new_size None]) (drops w) (cur_scope w))
            else (UB BadLayout, w)
        end
    end.

  (** All slots of the block behind a pointer. *)
  Definition get_slots (p : ptr) : M W (list (option T)) := fun w =>
    match p with
    | Dangling => (UB Dangling_access, w)
    | Blk b => match heap w !! b with
               | None => (UB UseAfterFree, w)
               | Some blk => (Ret (b_slots blk), w)
               end
    end.
  (** Replace all slots of the block behind a pointer. *)
  Definition put_slots (p : ptr) (s : list (option T)) : M W unit := fun w =>
    match p with
    | Dangling => (UB Dangling_access, w)
    | Blk b => match heap w !! b with
               | None => (UB UseAfterFree, w)
               | Some blk =>
                   (Ret tt, set_heap (<[b := Block (b_alloc blk) (b_layout blk) s]> (heap w)) w)
               end
    end.

  (** The slot with this index, if it is inside of the block. *)
  Definition slot_of (s : list (option T)) (i : N) : option (option T) :=
    if i <? llen s then s !! N.to_nat i else None.

  (** [ptr::read(p.add(i))], or reading through a reference to element [i]. *)
  Definition read_at (p : ptr) (i : N) : M W T :=
    if t_size =? 0 then ret t_zst else
    s <- get_slots p;
    match slot_of s i with
    | None => undef OutOfBounds
    | Some None => undef UninitRead
    | Some (Some x) => ret x
    end.

  (** [ptr::write(p.add(i), x)]. *)
  Definition write_at (p : ptr) (i : N) (x : T) : M W unit :=
    if t_size =? 0 then ret tt else
    s <- get_slots p;
    if i <? llen s then put_slots p (<[N.to_nat i := Some x]> s) else undef OutOfBounds.

  (** [ptr::copy(p.add(i), q.add(j), n)]: bitwise, uninitialised slots are copied as such and
      the source keeps its bits. *)
  Definition copy_out (p : ptr) (i n : N) : M W (list (option T)) :=
    s <- get_slots p;
    if i + n <=? llen s then ret (take (N.to_nat n) (drop (N.to_nat i) s)) else undef OutOfBounds.
  (** The second half of [ptr::copy]: writing the slots. *)
  Definition copy_in (q : ptr) (j : N) (l : list (option T)) : M W unit :=
    s <- get_slots q;
    if j + llen l <=? llen s
    then put_slots q (take (N.to_nat j) s ++ l ++ drop (N.to_nat j + length l) s)
    else undef OutOfBounds.
  (** The whole of [ptr::copy]. *)
  Definition copy_at (p : ptr) (i : N) (q : ptr) (j : N) (n : N) : M W unit :=
    if (t_size =? 0) || (n =? 0) then ret tt else
    l <- copy_out p i n; copy_in q j l.
  (** [ptr::copy_nonoverlapping]. *)
  Definition copy_nonoverlapping (p : ptr) (i : N) (q : ptr) (j : N) (n : N) : M W unit :=
    if (t_size =? 0) || (n =? 0) then ret tt else
    assume (negb (bool_decide (p = q)) || (i + n <=? j) || (j + n <=? i)) Overlap ;;
    copy_at p i q j n.

  (** Destructor of a value: logged, then possibly panics. *)
  Definition drop_val (x : T) : M W unit := fun w =>
    (if t_needs_drop && t_drop_panics x then Panic PDrop else Ret tt, add_drop x w).

  (** Destructors of a sequence of values held by the compiler (for instance an array): drop
      glue continues after a panic and aborts on a second one. *)
  Fixpoint drop_vals_glue (panicking : bool) (l : list T) : M W unit :=
    match l with
    | [] => if panicking then throw PDrop else ret tt
    | x :: l => (fun w => match drop_val x w with
                          | (Panic _, w') =>
                              if panicking then (Abort, w') else drop_vals_glue true l w'
                          | (Ret _, w') => drop_vals_glue panicking l w'
                          | r => r
                          end)
    end.
  (** The same, begun without a panic. *)
  Definition drop_vals (l : list T) : M W unit := drop_vals_glue false l.

  (** [drop_in_place(p.add(i))] for one element.  For a type without drop glue this is a no-op at
      run time; then the log entry is only bookkeeping (made when the element exists). *)
  Definition drop_at (p : ptr) (i : N) : M W unit :=
    if t_size =? 0 then drop_val t_zst else
    if t_needs_drop then
      s <- get_slots p;
      match slot_of s i with
      | None => undef OutOfBounds
      | Some None => undef UninitDrop
      | Some (Some x) => drop_val x
      end
    else fun w =>
      match get_slots p w with
      | (Ret s, _) => match slot_of s i with
                      | Some (Some x) => drop_val x w
                      | _ => (Ret tt, w)
                      end
      | _ => (Ret tt, w)
      end.

  (** [for k in i..i+n { drop_in_place(p.add(k)) }]: stops at the first panic. *)
  Fixpoint drop_loop (p : ptr) (i : N) (n : nat) : M W unit :=
    match n with
    | O => ret tt
    | S n => drop_at p i ;; drop_loop p (i + 1) n
    end.

  (** [drop_in_place] of a slice: drop glue continues after a panic, aborts on a second one. *)
  Fixpoint drop_slice_glue (panicking : bool) (p : ptr) (i : N) (n : nat) : M W unit :=
    match n with
    | O => if panicking then throw PDrop else ret tt
    | S n => (fun w => match drop_at p i w with
                       | (Panic _, w') =>
                           if panicking then (Abort, w') else drop_slice_glue true p (i + 1) n w'
                       | (Ret _, w') => drop_slice_glue panicking p (i + 1) n w'
                       | r => r
                       end)
    end.
  (** The same, begun without a panic. *)
  Definition drop_slice (p : ptr) (i : N) (n : nat) : M W unit := drop_slice_glue false p i n.

  (** Reading [n] consecutive elements through a slice reference. *)
  Fixpoint read_list (p : ptr) (i : N) (n : nat) : M W (list T) :=
    match n with
    | O => ret []
    | S n => x <- read_at p i; l <- read_list p (i + 1) n; ret (x :: l)
    end.

  (** [clone] of an element, supplied by the user. *)
  Definition clone_val (x : T) : M W T :=
    match t_clone x with Some y => ret y | None => throw PUser end.
End mem.
