(** Model of src/vec.rs. *)
From Verif Require Export PtrModel.

(** src/vec.rs 11-14: [Vec]. *)
Record vec := Vec { v_ptr : sptr; v_len : N }.

(** src/vec.rs 1199-1208: [Vecx], the operations that [RetainIter], [DrainInner] and
    [ResizeWith::do_resize] need.  Element access is through
    [as_slice_with_len*(n).get_unchecked*(i)], i.e. by index from the start of the storage. *)
Class Vecx (T V : Type) := {
  vx_len : V -> N;
  vx_set_len : N -> M (V * world T) unit;
  vx_read : N -> M (V * world T) T;
  vx_write : N -> T -> M (V * world T) unit;
  vx_drop_at : N -> M (V * world T) unit;
  vx_copy : N -> N -> N -> M (V * world T) unit;          (* ptr::copy from, to, count *)
  vx_copy_no : N -> N -> N -> M (V * world T) unit;       (* ptr::copy_nonoverlapping *)
  vx_truncate : N -> M (V * world T) unit;
  vx_push : T -> M (V * world T) unit;
  vx_reserve_exact : N -> M (V * world T) unit
}.

Section vec_model.
  Context `{!Env} {T : Type} `{!Elem T}.
  Notation W := (world T).
  Notation MV := (M (vec * W)).

  (** src/vec.rs 22-28: [MIN_NON_ZERO_CAP]. *)
  Definition min_non_zero_cap : N :=
    if t_size =? 1 then 8 else if t_size <=? 1024 then 4 else 1.

  (** src/vec.rs 90-96: [capacity]. *)
  Definition vcap (v : vec) : N := if t_size =? 0 then usize_max else sp_len (v_ptr v).
  (** src/vec.rs 85-87: [marker]. *)
  Definition vmarker (v : vec) : marker := sp_mark (v_ptr v).
  (** The data pointer (src/vec.rs 128-157, through [Deref]). *)
  Definition vdata (v : vec) : ptr := sp_ptr (v_ptr v).

  (** src/vec.rs 36-48: [with_marker]; the marker only selects the allocator, the pointer stores
      the default marker. *)
  Definition vec_with_marker (m : marker) : M W vec :=
    a <- alloc_for (Selector m t_name);
    ret (Vec (sp_dangling a MNone) 0).
  (** src/vec.rs 31-33, 878-883: [new], [Default]. *)
  Definition vec_new : M W vec := vec_with_marker MNone.

  (** src/vec.rs 66-82: [try_with_capacity_and_marker]. *)
  Definition vec_try_with_capacity_and_marker (c : N) (m : marker) : M W (result vec aerr) :=
    if (c =? 0) || (t_size =? 0) then v <- vec_with_marker m; ret (Ok v)
    else
      r <- alloc_array_uninit c (Selector m t_name);
      match r with Ok p => ret (Ok (Vec p 0)) | Err e => ret (Err e) end.
  (** src/vec.rs 61-63. *)
  Definition vec_try_with_capacity (c : N) : M W (result vec aerr) :=
    vec_try_with_capacity_and_marker c MNone.
  (** src/vec.rs 51-53, 56-58. *)
  Definition vec_with_capacity_and_marker (c : N) (m : marker) : M W vec :=
    r <- vec_try_with_capacity_and_marker c m; unwrap r.
  (** src/vec.rs 51-53: [with_capacity]. *)
  Definition vec_with_capacity (c : N) : M W vec := r <- vec_try_with_capacity c; unwrap r.

  (** src/vec.rs 122-125: [set_len]. *)
  Definition vec_set_len (n : N) : MV unit :=
    v <- get_fst;
    debug_assert (n <=? vcap v) ;;
    put_fst (Vec (v_ptr v) n).

  (** src/vec.rs 140-142: [as_slice], read as a list of values. *)
  Definition vec_as_slice (v : vec) : M W (list T) := read_list (vdata v) 0 (N.to_nat (v_len v)).

  (** src/vec.rs 1216-1223: [overflow_guarded_add]. *)
  Definition overflow_guarded_add {S} (a b : N) : M S N :=
    if a + b <=? usize_max then ret (a + b) else throw PCapacity.

  (** [self.ptr.realloc_array(n)], storing the updated pointer (ptr.rs 281). *)
  Definition vec_realloc (n : N) : MV (result unit aerr) :=
    v <- get_fst;
    r <- on_snd (realloc_array (v_ptr v) n);
    match r with
    | Ok p => put_fst (Vec p (v_len v)) ;; ret (Ok tt)
    | Err e => ret (Err e)
    end.

  (** src/vec.rs 229-240: [grow_exact].  [*self = …] drops the old vector, which has capacity 0,
      so nothing happens. *)
  Definition vec_grow_exact (n : N) : MV (result unit aerr) :=
    v <- get_fst;
    debug_assert (vcap v <? n) ;;
    if vcap v =? 0 then
      r <- on_snd (vec_try_with_capacity_and_marker n (vmarker v));
      match r with
      | Ok v' => put_fst v' ;; ret (Ok tt)
      | Err e => ret (Err e)
      end
    else vec_realloc n.

  (** src/vec.rs 218-226: [grow_amortized]. *)
  Definition vec_grow_amortized (n : N) : MV (result unit aerr) :=
    v <- get_fst;
    debug_assert (vcap v <? n) ;;
    c2 <- umul (vcap v) 2;
    vec_grow_exact (N.max (N.max n min_non_zero_cap) c2).

  (** src/vec.rs 193-200: [try_reserve_exact]. *)
  Definition vec_try_reserve_exact (n : N) : MV (result unit aerr) :=
    v <- get_fst;
    req <- overflow_guarded_add (v_len v) n;
    if vcap v <? req then vec_grow_exact req else ret (Ok tt).
  (** src/vec.rs 188-190. *)
  Definition vec_reserve_exact (n : N) : MV unit := r <- vec_try_reserve_exact n; unwrap r.

  (** src/vec.rs 208-215: [try_reserve]. *)
  Definition vec_try_reserve (n : N) : MV (result unit aerr) :=
    v <- get_fst;
    req <- overflow_guarded_add (v_len v) n;
    if vcap v <? req then vec_grow_amortized req else ret (Ok tt).
  (** src/vec.rs 203-205. *)
  Definition vec_reserve (n : N) : MV unit := r <- vec_try_reserve n; unwrap r.

  (** src/vec.rs 243-252: [shrink]. *)
  Definition vec_shrink (n : N) : MV (result unit aerr) :=
    v <- get_fst;
    debug_assert (n <? vcap v) ;;
    debug_assert (v_len v <=? n) ;;
    if t_size =? 0 then ret (Ok tt) else vec_realloc n.

  (** src/vec.rs 255-259: [shrink_to_fit]. *)
  Definition vec_shrink_to_fit : MV unit :=
    v <- get_fst;
    if v_len v <? vcap v then r <- vec_shrink (v_len v); unwrap r else ret tt.
  (** src/vec.rs 262-267: [shrink_to]. *)
  Definition vec_shrink_to (m : N) : MV unit :=
    v <- get_fst;
    let c := N.max (v_len v) m in
    if c <? vcap v then r <- vec_shrink c; unwrap r else ret tt.

  (** src/vec.rs 270-280: [clear]: drops every element, then sets the length. *)
  Definition vec_clear : MV unit :=
    v <- get_fst;
    on_snd (drop_loop (vdata v) 0 (N.to_nat (v_len v))) ;;
    vec_set_len 0.

  (** src/vec.rs 283-295: [push]. *)
  Definition vec_push (x : T) : MV unit :=
    on_unwind (vec_reserve_exact 1) (on_snd (drop_val x)) ;;
    v <- get_fst;
    on_snd (write_at (vdata v) (v_len v) x) ;;
    n <- uadd (v_len v) 1;
    vec_set_len n.

  (** src/vec.rs 298-311: [pop]. *)
  Definition vec_pop : MV (option T) :=
    v <- get_fst;
    if v_len v =? 0 then ret None else
    i <- usub (v_len v) 1;
    x <- on_snd (read_at (vdata v) i);
    vec_set_len i ;;
    ret (Some x).

  (** src/vec.rs 977-990: [Drop for Vec]. *)
  Definition vec_drop : MV unit :=
    v <- get_fst;
    if 0 <? vcap v then
      on_snd (drop_loop (vdata v) 0 (N.to_nat (v_len v))) ;;
      on_snd (sp_dealloc (v_ptr v))
    else ret tt.

  (** Dropping a vector held in a local variable. *)
  Definition vec_drop_val (v : vec) : M W unit := fun w =>
    let '(r, (_, w')) := vec_drop (v, w) in (r, w').

  (** src/vec.rs 314-318: [leak]: the slice is taken, then [self] is dropped at the end. *)
  Definition vec_leak (v : vec) : M W (ptr * N) :=
    vec_drop_val v ;; ret (vdata v, v_len v).

  (** src/vec.rs 322-324: [dealloc_without_drop]; [self] is dropped at the end. *)
  Definition vec_dealloc_without_drop (v : vec) : M W unit :=
    sp_dealloc (v_ptr v) ;; vec_drop_val v.

  (** src/vec.rs 327-339: [append]; [other] is returned updated. *)
  Definition vec_append (o : vec) : MV vec :=
    vec_reserve_exact (v_len o) ;;
    v <- get_fst;
    on_snd (copy_nonoverlapping (vdata o) 0 (vdata v) (v_len v) (v_len o)) ;;
    n <- uadd (v_len v) (v_len o);
    vec_set_len n ;;
    ret (Vec (v_ptr o) 0).

  (** The loop of [extend_from_slice] (src/vec.rs 342-350). *)
  Fixpoint vec_push_clones (l : list T) : MV unit :=
    match l with
    | [] => ret tt
    | x :: l => y <- on_snd (clone_val x); vec_push y ;; vec_push_clones l
    end.
  (** src/vec.rs 342-350: [extend_from_slice]. *)
  Definition vec_extend_from_slice (l : list T) : MV unit :=
    vec_reserve_exact (llen l) ;; vec_push_clones l.

  (** An iterator is the list of what its [next] calls do: yield a value or panic ([None]). *)
  Fixpoint vec_push_all (it : list (option T)) : MV unit :=
    match it with
    | [] => ret tt
    | Some x :: it => vec_push x ;; vec_push_all it
    | None :: _ => throw PUser
    end.
  (** src/vec.rs 352-359: [extend_from_iter]; [hint] is the lower bound of [size_hint]. *)
  Definition vec_extend_from_iter (it : list (option T)) (hint : N) : MV unit :=
    vec_reserve_exact hint ;; vec_push_all it.

  (** src/vec.rs 362-381: [swap_remove]. *)
  Definition vec_swap_remove (i : N) : MV T :=
    v <- get_fst;
    assert (i <? v_len v) ;;
    if v_len v =? 1 then
      o <- vec_pop; match o with Some x => ret x | None => throw PUnwrap end
    else
      last <- usub (v_len v) 1;
      x <- on_snd (read_at (vdata v) i);
      on_snd (copy_nonoverlapping (vdata v) last (vdata v) i 1) ;;
      n <- usub (v_len v) 1;
      vec_set_len n ;;
      ret x.

  (** src/vec.rs 384-395: [into_boxed_slice]. *)
  Definition vec_into_boxed_slice (v : vec) : M W sptr :=
    r <- with_local v vec_shrink_to_fit vec_drop;
    ret (v_ptr (snd r)).

  (** src/vec.rs 398-411: [split_off]; no length is updated. *)
  Definition vec_split_off (at_ : N) : MV vec :=
    v <- get_fst;
    if v_len v <=? at_ then on_snd vec_new else
    count <- usub (v_len v) at_;
    o <- on_snd (vec_with_capacity count);
    on_snd (copy_nonoverlapping (vdata v) at_ (vdata o) 0 count) ;;
    ret o.

  (** src/vec.rs 419-437: [insert]. *)
  Definition vec_insert (i : N) (x : T) : MV unit :=
    on_unwind
      (v <- get_fst;
       assert (i <=? v_len v) ;;
       if v_len v =? vcap v then vec_reserve_exact 1 else ret tt)
      (on_snd (drop_val x)) ;;
    v <- get_fst;
    n <- uadd (v_len v) 1;
    assume (i <? n) Precond ;;
    c <- usub (v_len v) i;
    on_snd (copy_at (vdata v) i (vdata v) (i + 1) c) ;;
    on_snd (write_at (vdata v) i x) ;;
    vec_set_len n.

  (** src/vec.rs 439-460: [truncate]. *)
  Definition vec_truncate (n : N) : MV unit :=
    v <- get_fst;
    if v_len v <? n then ret tt else
    c <- usub (v_len v) n;
    vec_set_len n ;;
    on_snd (drop_slice (vdata v) n (N.to_nat c)).

  (** src/vec.rs 462-482: [remove]. *)
  Definition vec_remove (i : N) : MV T :=
    v <- get_fst;
    assert (i <? v_len v) ;;
    x <- on_snd (read_at (vdata v) i);
    c <- usub (v_len v) i;
    c <- usub c 1;
    on_snd (copy_at (vdata v) (i + 1) (vdata v) i c) ;;
    n <- usub (v_len v) 1;
    vec_set_len n ;;
    ret x.

  (** [v[i]] and [v[i] = x] (src/vec.rs 937-949); the assignment drops the old element. *)
  Definition vec_index (i : N) : MV T :=
    v <- get_fst;
    if i <? v_len v then on_snd (read_at (vdata v) i) else throw PIndex.
  (** src/vec.rs 945-949: [IndexMut], used for [v[i] = x]. *)
  Definition vec_assign (i : N) (x : T) : MV unit :=
    v <- get_fst;
    if i <? v_len v then
      old <- on_snd (read_at (vdata v) i);
      on_snd (write_at (vdata v) i x) ;;
      on_snd (drop_val old)
    else on_unwind (throw PIndex) (on_snd (drop_val x)).
  (** [get(i)] (slice method through [Deref]). *)
  Definition vec_get (i : N) : MV (option T) :=
    v <- get_fst;
    if i <? v_len v then x <- on_snd (read_at (vdata v) i); ret (Some x) else ret None.

  (** src/vec.rs 1157-1197: [Vecx for Vec]. *)
  Global Instance vec_vecx : Vecx T vec := {
    vx_len := v_len;
    vx_set_len := vec_set_len;
    vx_read i := (v <- get_fst; on_snd (read_at (vdata v) i));
    vx_write i x := (v <- get_fst; on_snd (write_at (vdata v) i x));
    vx_drop_at i := (v <- get_fst; on_snd (drop_at (vdata v) i));
    vx_copy i j n := (v <- get_fst; on_snd (copy_at (vdata v) i (vdata v) j n));
    vx_copy_no i j n := (v <- get_fst; on_snd (copy_nonoverlapping (vdata v) i (vdata v) j n));
    vx_truncate := vec_truncate;
    vx_push := vec_push;
    vx_reserve_exact := vec_reserve_exact
  }.
End vec_model.

(** Code that is generic in [Vecx]. *)
Section vecx_model.
  Context `{!Env} {T : Type} `{!Elem T} {V : Type} `{!Vecx T V}.
  Notation W := (world T).
  Notation MX := (M (V * W)).

  (** [len] of a [Vecx] (src/vec.rs 1157-1197). *)
  Definition vx_get_len : MX N := v <- get_fst; ret (vx_len v).

  (** src/vec.rs 670-672: the loop of [do_resize]; [next k] is the k-th call of [next]. *)
  Fixpoint push_next (next : nat -> MX T) (k : nat) (n : nat) : MX unit :=
    match n with
    | O => ret tt
    | S n => x <- next k; vx_push x ;; push_next next (S k) n
    end.

  (** src/vec.rs 662-677: [ResizeWith::do_resize]; [cleanup] drops the [ResizeWith] value itself
      when it has not been consumed by [last]. *)
  Definition do_resize (next : nat -> MX T) (last : nat -> MX T) (cleanup : MX unit) (n : N)
    : MX unit :=
    len <- vx_get_len;
    if n <=? len then finally (vx_truncate n) cleanup
    else
      additional <- usub n len;
      k <- on_unwind
        (vx_reserve_exact additional ;;
         k <- usub additional 1;
         push_next next 0 (N.to_nat k) ;;
         ret (N.to_nat k)) cleanup;
      x <- last k;
      vx_push x.

  (** src/vec.rs 691-700, 484-489: [resize] through [ResizeWithVal]. *)
  Definition resize_val (n : N) (x : T) : MX unit :=
    do_resize (fun _ => on_snd (clone_val x)) (fun _ => ret x) (on_snd (drop_val x)) n.

  (** src/vec.rs 680-689, 491-493: [resize_with] through [ResizeWithFn]; [g k] is the outcome of
      the k-th call of the closure ([None]: it panics). *)
  Definition call_fn (g : nat -> option T) (k : nat) : MX T :=
    match g k with Some x => ret x | None => throw PUser end.
  (** src/vec.rs 491-493, 680-689: [resize_with]. *)
  Definition resize_fn (n : N) (g : nat -> option T) : MX unit :=
    do_resize (call_fn g) (call_fn g) (ret tt) n.

  (** src/vec.rs 713-738: [RetainIter::new]; returns (write, read, initial_len). *)
  Definition retain_new (discard_first : bool) : MX (N * N * N) :=
    len <- vx_get_len;
    debug_assert (negb (len =? 0)) ;;
    if discard_first then
      vx_set_len 0 ;;
      vx_drop_at 0 ;;
      ret (0, 1, len)
    else
      vx_set_len 1 ;;
      ret (1, 2, len).

  (** src/vec.rs 769-792: [copy], [increment_vec_len], [keep_next]. *)
  Definition keep_next (write read : N) : MX unit :=
    debug_assert (negb (read =? write)) ;;
    vx_copy_no read write 1 ;;
    len <- vx_get_len;
    n <- uadd len 1;
    vx_set_len n.
  (** src/vec.rs 795-798: [discard_next]. *)
  Definition discard_next (read : N) : MX unit := vx_drop_at read.

  (** src/vec.rs 859-865: the loop of [retain].  [has_next] is [read < initial_len] and every
      iteration increments [read], so the loop runs [n = initial_len - read] times.  The
      closure [f] carries its own state; [None]: it panics. *)
  Fixpoint retain_loop {St} (f : St -> T -> St * option bool) (st : St) (write read : N) (n : nat)
    : MX St :=
    match n with
    | O => ret st
    | S n =>
        x <- vx_read read;
        let '(st, r) := f st x in
        match r with
        | None => throw PUser
        | Some true => keep_next write read ;; retain_loop f st (write + 1) (read + 1) n
        | Some false => discard_next read ;; retain_loop f st write (read + 1) n
        end
    end.
  (** src/vec.rs 850-866: [RetainIter::retain]. *)
  Definition retain {St} (f : St -> T -> St * option bool) (st : St) : MX St :=
    len <- vx_get_len;
    if len =? 0 then ret st else
    x <- vx_read 0;
    let '(st, r) := f st x in
    match r with
    | None => throw PUser
    | Some b =>
        q <- retain_new (negb b);
        let '(write, read, len) := q in
        retain_loop f st write read (N.to_nat (len - read))
    end.

  (** src/vec.rs 817-825: the loop of [dedup_by].  The closure gets both elements by [&mut]; it
      returns its new state, the two possibly modified elements and its verdict. *)
  Fixpoint dedup_by_loop {St} (f : St -> T -> T -> St * (T * T) * option bool) (st : St)
    (kept write read : N) (n : nat) : MX St :=
    match n with
    | O => ret st
    | S n =>
        t <- vx_read read;
        k <- vx_read kept;
        let '(st, (t', k'), r) := f st t k in
        vx_write read t' ;;
        vx_write kept k' ;;
        match r with
        | None => throw PUser
        | Some true => discard_next read ;; dedup_by_loop f st kept write (read + 1) n
        | Some false => keep_next write read ;; dedup_by_loop f st read (write + 1) (read + 1) n
        end
    end.
  (** src/vec.rs 801-826: [RetainIter::dedup_by]. *)
  Definition dedup_by {St} (f : St -> T -> T -> St * (T * T) * option bool) (st : St) : MX St :=
    len <- vx_get_len;
    if len =? 0 then ret st else
    q <- retain_new false;
    let '(write, read, len) := q in
    dedup_by_loop f st 0 write read (N.to_nat (len - read)).
  (** src/vec.rs 499-504: [dedup], with the element equality [eqb]. *)
  Definition dedup (eqb : T -> T -> bool) : MX unit :=
    dedup_by (fun _ a b => (tt, (a, b), Some (eqb a b))) tt.

  (** src/vec.rs 838-846: the loop of [dedup_by_key].  Keys are plain data (their destructors are
      not modelled). *)
  Fixpoint dedup_key_loop {St K} (keq : K -> K -> bool) (key : St -> T -> St * T * option K)
    (st : St) (prev : K) (write read : N) (n : nat) : MX St :=
    match n with
    | O => ret st
    | S n =>
        t <- vx_read read;
        let '(st, t', r) := key st t in
        vx_write read t' ;;
        match r with
        | None => throw PUser
        | Some k =>
            if keq prev k
            then discard_next read ;; dedup_key_loop keq key st prev write (read + 1) n
            else keep_next write read ;; dedup_key_loop keq key st k (write + 1) (read + 1) n
        end
    end.
  (** src/vec.rs 829-847: [RetainIter::dedup_by_key]. *)
  Definition dedup_by_key {St K} (keq : K -> K -> bool) (key : St -> T -> St * T * option K)
    (st : St) : MX St :=
    len <- vx_get_len;
    if len =? 0 then ret st else
    t <- vx_read 0;
    let '(st, t', r) := key st t in
    vx_write 0 t' ;;
    match r with
    | None => throw PUser
    | Some k =>
        q <- retain_new false;
        let '(write, read, len) := q in
        dedup_key_loop keq key st k write read (N.to_nat (len - read))
    end.

  (** core: [Bound] and [RangeBounds]. *)
  Inductive bound := Included (n : N) | Excluded (n : N) | Unbounded.

  (** src/vec.rs 521-527: [DrainInner]; [dr_base]/[dr_n] is the remaining slice. *)
  Record drain := Drain { dr_base : N; dr_n : N; dr_start : N; dr_end : N; dr_orig : N }.

  (** src/vec.rs 530-555: [DrainInner::new].  The slice is taken after the length was set. *)
  Definition drain_new (lo hi : bound) : MX drain :=
    start <- match lo with Unbounded => ret 0 | Included n => ret n | Excluded n => uadd n 1 end;
    len <- vx_get_len;
    end_ <- match hi with Unbounded => ret len | Included n => uadd n 1 | Excluded n => ret n end;
    vx_set_len start ;;
    len' <- vx_get_len;
    if (start <=? end_) && (end_ <=? len') then
      ret (Drain start (end_ - start) start end_ len')
    else throw PIndex.

  (** src/vec.rs 587-597: [next]. *)
  Definition drain_next (d : drain) : MX (option T * drain) :=
    if dr_n d =? 0 then ret (None, d) else
    x <- vx_read (dr_base d);
    ret (Some x, Drain (dr_base d + 1) (dr_n d - 1) (dr_start d) (dr_end d) (dr_orig d)).

  (** src/vec.rs 606-616: [next_back]; the remaining slice starts at the element just read. *)
  Definition drain_next_back (d : drain) : MX (option T * drain) :=
    if dr_n d =? 0 then ret (None, d) else
    let i := dr_base d + dr_n d - 1 in
    x <- vx_read i;
    ret (Some x, Drain i (dr_n d - 1) (dr_start d) (dr_end d) (dr_orig d)).

  (** [Iterator::count]: consumes and drops what is left. *)
  Fixpoint drain_count (d : drain) (n : nat) : MX unit :=
    match n with
    | O => ret tt
    | S n =>
        r <- drain_next d;
        match fst r with
        | None => ret tt
        | Some x => on_snd (drop_val x) ;; drain_count (snd r) n
        end
    end.

  (** src/vec.rs 562-582: [Drop for DrainInner]. *)
  Definition drain_drop (d : drain) : MX unit :=
    drain_count d (N.to_nat (dr_n d)) ;;
    len <- vx_get_len;
    assume (dr_start d <? len) Precond ;;
    assume (dr_end d <? len) Precond ;;
    count <- usub (dr_end d) (dr_start d);
    vx_copy (dr_end d) (dr_start d) count ;;
    n <- usub (dr_orig d) count;
    vx_set_len n.
End vecx_model.

(** Conversions and by-value iteration. *)
Section vec_conv.
  Context `{!Env} {T : Type} `{!Elem T}.
  Notation W := (world T).

  (** src/vec.rs 929-935: [Clone for Vec]. *)
  Definition vec_clone (v : vec) : M W vec :=
    l <- vec_as_slice v;
    n <- vec_new;
    r <- with_local n (vec_extend_from_slice l) vec_drop;
    ret (snd r).

  (** src/vec.rs 992-998: [From<&[T]>]; [clone_from_slice] on a slice of length 0 panics unless
      the source is empty as well. *)
  Definition vec_from_slice (l : list T) : M W vec :=
    n <- vec_new;
    r <- with_local n (if llen l =? 0 then ret tt else throw PLen) vec_drop;
    ret (snd r).

  (** src/vec.rs 1006-1030: [From<[T; N]>].  While [reserve_exact] can panic both the new vector
      and the array are still owned. *)
  Definition vec_from_array (l : list T) : M W vec :=
    n <- on_unwind vec_new (drop_vals l);
    r <- with_local n
      (on_unwind (vec_reserve_exact (llen l)) (vec_drop ;; on_snd (drop_vals l)) ;;
       v <- get_fst;
       on_snd (if (t_size =? 0) || (llen l =? 0) then ret tt
               else copy_in (vdata v) 0 (Some <$> l)) ;;
       vec_set_len (llen l))
      (ret tt);
    ret (snd r).

  (** src/vec.rs 1032-1040: [From<Box<[T]>>]. *)
  Definition vec_from_box (b : sptr) : vec := Vec b (sp_len b).

  (** src/vec.rs 1053-1064: [FromIterator]. *)
  Definition vec_from_iter (it : list (option T)) (hint : N) : M W vec :=
    n <- vec_with_capacity hint;
    r <- with_local n (vec_push_all it) vec_drop;
    ret (snd r).

  (** src/vec.rs 1079-1082: [IntoIter]. *)
  Record into_iter := IntoIter { it_vec : vec; it_index : N }.
  Notation MI := (M (into_iter * W)).

  (** src/vec.rs 1071-1076: [into_iter]. *)
  Definition vec_into_iter (v : vec) : into_iter := IntoIter v 0.

  (** src/vec.rs 1087-1095: [next]. *)
  Definition it_next : MI (option T) :=
    i <- get_fst;
    if it_index i <? v_len (it_vec i) then
      n <- uadd (it_index i) 1;
      put_fst (IntoIter (it_vec i) n) ;;
      x <- on_snd (read_at (vdata (it_vec i)) (it_index i));
      ret (Some x)
    else ret None.

  (** src/vec.rs 1097-1099: [size_hint] (both bounds are equal). *)
  Definition it_size_hint (i : into_iter) : N := v_len (it_vec i).

  (** Run a vector operation on the vector inside the iterator. *)
  Definition on_it_vec {A} (m : M (vec * W) A) : MI A := fun s =>
    let '(r, (v', w')) := m (it_vec (fst s), snd s) in
    (r, (IntoIter v' (it_index (fst s)), w')).

  (** src/vec.rs 1103-1105: [next_back]. *)
  Definition it_next_back : MI (option T) := on_it_vec vec_pop.

  (** src/vec.rs 1112-1131: [Drop for IntoIter], followed by the drop of its field [vec] (also
      when the body panics).  A slice larger than [isize::MAX] bytes cannot be formed. *)
  Definition it_drop_body : MI unit :=
    i <- get_fst;
    let len := v_len (it_vec i) in
    on_it_vec (vec_set_len 0) ;;
    c <- usub len (it_index i);
    if (isize_max <? c * t_size) then undef Precond else
    on_snd (drop_loop (vdata (it_vec i)) (it_index i) (N.to_nat c)).
  (** src/vec.rs 1112-1131: [Drop for IntoIter], then the drop of its field. *)
  Definition it_drop : MI unit := finally it_drop_body (on_it_vec vec_drop).

  (** src/vec.rs 1134-1140: [as_slice]; [self.len()] is [ExactSizeIterator::len]. *)
  Definition it_as_slice (i : into_iter) : M W (list T) :=
    c <- usub (it_size_hint i) (it_index i);
    read_list (vdata (it_vec i)) (it_index i) (N.to_nat c).

  (** src/vec.rs 951-975: comparisons and hashing go through [as_slice]; slices compare
      element by element. *)
  Fixpoint slice_eq (eqb : T -> T -> bool) (a b : list T) : bool :=
    match a, b with
    | [], [] => true
    | x :: a, y :: b => eqb x y && slice_eq eqb a b
    | _, _ => false
    end.
  (** core: lexicographic comparison of slices, behind src/vec.rs 959-969. *)
  Fixpoint slice_cmp (cmp : T -> T -> comparison) (a b : list T) : comparison :=
    match a, b with
    | [], [] => Eq
    | [], _ => Lt
    | _, [] => Gt
    | x :: a, y :: b => match cmp x y with Eq => slice_cmp cmp a b | c => c end
    end.
  (** A hasher is a state fed with the length, then each element. *)
  Definition slice_hash {H} (hlen : H -> N -> H) (hel : H -> T -> H) (h : H) (a : list T) : H :=
    fold_left hel a (hlen h (llen a)).
  (** src/vec.rs 951-955: [PartialEq]. *)
  Definition vec_eq (eqb : T -> T -> bool) (v1 v2 : vec) : M W bool :=
    a <- vec_as_slice v1; b <- vec_as_slice v2; ret (slice_eq eqb a b).
  (** src/vec.rs 959-969: [PartialOrd], [Ord]. *)
  Definition vec_cmp (cmp : T -> T -> comparison) (v1 v2 : vec) : M W comparison :=
    a <- vec_as_slice v1; b <- vec_as_slice v2; ret (slice_cmp cmp a b).
  (** src/vec.rs 971-975: [Hash]. *)
  Definition vec_hash {H} (hlen : H -> N -> H) (hel : H -> T -> H) (h : H) (v : vec) : M W H :=
    a <- vec_as_slice v; ret (slice_hash hlen hel h a).
End vec_conv.
