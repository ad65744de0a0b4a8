(** Model of src/small_vec.rs.

    The inline array [[MaybeUninit<T>; N]] is a list of [N] slots inside the value itself, so
    moving a [SmallVec] moves its slots.  The const generic [N] is the parameter [Cap]. *)
From Verif Require Export VecModel.

(** src/small_vec.rs 30-33: [StackVec]. *)
Record stackvec (T : Type) := StackVec { sk_slots : list (option T); sk_len : N }.
Arguments StackVec {T}. Arguments sk_slots {T}. Arguments sk_len {T}.

(** src/small_vec.rs 25-28: [Storage]. *)
Inductive store (T : Type) := Stack (k : stackvec T) | Heap (v : vec).
Arguments Stack {T}. Arguments Heap {T}.

(** src/small_vec.rs 20-23: [SmallVec]. *)
Record svec (T : Type) := SVec { sv_store : store T; sv_marker : marker }.
Arguments SVec {T}. Arguments sv_store {T}. Arguments sv_marker {T}.

Section stack_model.
  Context `{!Env} {T : Type} `{!Elem T} (Cap : N).
  Notation W := (world T).
  Notation MK := (M (stackvec T * W)).

  (** src/small_vec.rs 101-107: [StackVec::new]. *)
  Definition sk_new : stackvec T := StackVec (replicate (N.to_nat Cap) None) 0.

  (** Element access inside the array, by index from its start (src/small_vec.rs 137-151 and
      raw pointer arithmetic). *)
  Definition sk_read (i : N) : MK T :=
    if t_size =? 0 then ret t_zst else
    k <- get_fst;
    match slot_of (sk_slots k) i with
    | None => undef OutOfBounds
    | Some None => undef UninitRead
    | Some (Some x) => ret x
    end.
  (** Writing an element of the array: [ptr::write] in src/small_vec.rs 178, 203. *)
  Definition sk_write (i : N) (x : T) : MK unit :=
    if t_size =? 0 then ret tt else
    k <- get_fst;
    if i <? llen (sk_slots k)
    then put_fst (StackVec (<[N.to_nat i := Some x]> (sk_slots k)) (sk_len k))
    else undef OutOfBounds.
  (** [drop_in_place] of an element of the array (src/small_vec.rs 154-161, 247-259); a no-op for
      types without drop glue. *)
  Definition sk_drop_at (i : N) : MK unit :=
    if t_size =? 0 then on_snd (drop_val t_zst) else
    k <- get_fst;
    match slot_of (sk_slots k) i with
    | Some (Some x) => on_snd (drop_val x)
    | o => if t_needs_drop
           then undef (match o with None => OutOfBounds | _ => UninitDrop end) else ret tt
    end.
  (** [ptr::copy] inside the array. *)
  Definition sk_copy (i j n : N) : MK unit :=
    if (t_size =? 0) || (n =? 0) then ret tt else
    k <- get_fst;
    let s := sk_slots k in
    if (i + n <=? llen s) && (j + n <=? llen s)
    then put_fst (StackVec (take (N.to_nat j) s ++ take (N.to_nat n) (drop (N.to_nat i) s)
                              ++ drop (N.to_nat j + N.to_nat n) s) (sk_len k))
    else undef OutOfBounds.
  (** [copy_nonoverlapping] inside the array (src/small_vec.rs 272). *)
  Definition sk_copy_no (i j n : N) : MK unit :=
    if (t_size =? 0) || (n =? 0) then ret tt else
    assume ((i + n <=? j) || (j + n <=? i)) Overlap ;; sk_copy i j n.
  (** The loops dropping elements one after the other (src/small_vec.rs 154-161, 247-259, 725-731);
      they stop at the first panic. *)
  Fixpoint sk_drop_range (i : N) (n : nat) : MK unit :=
    match n with
    | O => ret tt
    | S n => sk_drop_at i ;; sk_drop_range (i + 1) n
    end.
  (** Reading the elements through the slice of src/small_vec.rs 144-147. *)
  Fixpoint sk_read_list (i : N) (n : nat) : MK (list T) :=
    match n with
    | O => ret []
    | S n => x <- sk_read i; l <- sk_read_list (i + 1) n; ret (x :: l)
    end.

  (** src/small_vec.rs 125-129: [set_len]. *)
  Definition sk_set_len (n : N) : MK unit :=
    k <- get_fst;
    debug_assert (n <=? Cap) ;;
    put_fst (StackVec (sk_slots k) n).

  (** src/small_vec.rs 132-134: [as_slice]. *)
  Definition sk_as_slice : MK (list T) := k <- get_fst; sk_read_list 0 (N.to_nat (sk_len k)).

  (** src/small_vec.rs 153-160: [clear]. *)
  Definition sk_clear : MK unit :=
    k <- get_fst;
    sk_set_len 0 ;;
    sk_drop_range 0 (N.to_nat (sk_len k)).

  (** src/small_vec.rs 163-165: [is_full]. *)
  Definition sk_is_full (k : stackvec T) : bool := sk_len k =? Cap.

  (** src/small_vec.rs 168-179: [unchecked_push]. *)
  Definition sk_unchecked_push (x : T) : MK unit :=
    on_unwind (k <- get_fst; assert (negb (sk_is_full k))) (on_snd (drop_val x)) ;;
    k <- get_fst;
    sk_write (sk_len k) x ;;
    n <- uadd (sk_len k) 1;
    sk_set_len n.

  (** src/small_vec.rs 182-193: [pop]. *)
  Definition sk_pop : MK (option T) :=
    k <- get_fst;
    if sk_len k =? 0 then ret None else
    i <- usub (sk_len k) 1;
    x <- sk_read i;
    sk_set_len i ;;
    ret (Some x).

  (** src/small_vec.rs 195-205: [unchecked_insert]; [get_unchecked_mut] wants an index below the
      length. *)
  Definition sk_unchecked_insert (i : N) (x : T) : MK unit :=
    c <- on_unwind
      (k <- get_fst;
       debug_assert (i <=? sk_len k) ;;
       assume (i <? sk_len k) Precond ;;
       usub (sk_len k) i) (on_snd (drop_val x));
    sk_copy i (i + 1) c ;;
    sk_write i x ;;
    k <- get_fst;
    n <- uadd (sk_len k) 1;
    sk_set_len n.

  (** src/small_vec.rs 213-231: [unchecked_remove]; 207-211: [remove].  The move copies
      [len - index] elements, one more than there are. *)
  Definition sk_unchecked_remove (i : N) : MK T :=
    k <- get_fst;
    debug_assert (i <? sk_len k) ;;
    x <- sk_read i;
    c <- usub (sk_len k) i;
    sk_copy (i + 1) i c ;;
    n <- usub (sk_len k) 1;
    sk_set_len n ;;
    ret x.
  (** src/small_vec.rs 207-211: [remove]. *)
  Definition sk_remove (i : N) : MK T :=
    k <- get_fst;
    assert (i <? sk_len k) ;;
    sk_unchecked_remove i.

  (** src/small_vec.rs 246-259: [truncate]; the loop runs over [old_len..len]. *)
  Definition sk_truncate (n : N) : MK unit :=
    k <- get_fst;
    if n <? sk_len k then
      sk_set_len n ;;
      sk_drop_range (sk_len k) (N.to_nat (n - sk_len k))
    else ret tt.

  (** src/small_vec.rs 261-277: [swap_remove]. *)
  Definition sk_swap_remove (i : N) : MK T :=
    k <- get_fst;
    assert (i <? sk_len k) ;;
    x <- sk_read i;
    last <- usub (sk_len k) 1;
    sk_copy_no last i 1 ;;
    n <- usub (sk_len k) 1;
    sk_set_len n ;;
    ret x.

  (** src/small_vec.rs 725-731: [Drop for StackVec]. *)
  Definition sk_drop : MK unit := k <- get_fst; sk_drop_range 0 (N.to_nat (sk_len k)).

  (** src/small_vec.rs 767-808: [Vecx for StackVec]. *)
  Global Instance stack_vecx : Vecx T (stackvec T) := {
    vx_len := sk_len;
    vx_set_len := sk_set_len;
    vx_read := sk_read;
    vx_write := sk_write;
    vx_drop_at := sk_drop_at;
    vx_copy := sk_copy;
    vx_copy_no := sk_copy_no;
    vx_truncate := sk_truncate;
    vx_push x :=
      (on_unwind (k <- get_fst; debug_assert (negb (sk_is_full k))) (on_snd (drop_val x)) ;;
       sk_unchecked_push x);
    vx_reserve_exact n :=
      (k <- get_fst;
       if @e_checks e_profile then m <- uadd (sk_len k) n; debug_assert (m <=? Cap) else ret tt)
  }.
End stack_model.

Section small_model.
  Context `{!Env} {T : Type} `{!Elem T} (Cap : N).
  Notation W := (world T).
  Notation SV := (svec T).
  Notation MS := (M (svec T * W)).

  (** Run a method of the inline or of the heap representation. *)
  Definition on_stack {A} (k : stackvec T) (m : M (stackvec T * W) A) : MS A := fun s =>
    let '(r, (k', w')) := m (k, snd s) in (r, (SVec (Stack k') (sv_marker (fst s)), w')).
  (** The same for the heap representation (src/small_vec.rs 37-94). *)
  Definition on_heap {A} (v : vec) (m : M (vec * W) A) : MS A := fun s =>
    let '(r, (v', w')) := m (v, snd s) in (r, (SVec (Heap v') (sv_marker (fst s)), w')).
  (** src/small_vec.rs 37-94: [redirect_fn!]. *)
  Definition redirect {A} (mk : M (stackvec T * W) A) (mv : M (vec * W) A) : MS A :=
    s <- get_fst;
    match sv_store s with Stack k => on_stack k mk | Heap v => on_heap v mv end.

  (** src/small_vec.rs 347-354: [with_marker]; 311-314: [new]. *)
  Definition sv_with_marker (m : marker) : SV := SVec (Stack (sk_new Cap)) m.
  (** src/small_vec.rs 312-315: [new]. *)
  Definition sv_new : SV := sv_with_marker MNone.

  (** src/small_vec.rs 316-331: [try_with_capacity_and_marker]. *)
  Definition sv_try_with_capacity_and_marker (c : N) (m : marker) : M W (result SV aerr) :=
    if Cap <? c then
      r <- vec_try_with_capacity_and_marker c m;
      match r with Ok v => ret (Ok (SVec (Heap v) m)) | Err e => ret (Err e) end
    else ret (Ok (sv_with_marker m)).
  (** src/small_vec.rs 333-345. *)
  Definition sv_with_capacity_and_marker (c : N) (m : marker) : M W SV :=
    r <- sv_try_with_capacity_and_marker c m; unwrap r.
  (** src/small_vec.rs 343-346: [with_capacity]. *)
  Definition sv_with_capacity (c : N) : M W SV := sv_with_capacity_and_marker c MNone.

  (** src/small_vec.rs 356-379: the redirected methods. *)
  Definition sv_capacity (s : SV) : N :=
    match sv_store s with Stack _ => Cap | Heap v => vcap v end.
  (** src/small_vec.rs 358: [len]. *)
  Definition sv_len (s : SV) : N :=
    match sv_store s with Stack k => sk_len k | Heap v => v_len v end.
  (** src/small_vec.rs 359: [set_len]. *)
  Definition sv_set_len (n : N) : MS unit := redirect (sk_set_len Cap n) (vec_set_len n).
  (** src/small_vec.rs 362: [clear]. *)
  Definition sv_clear : MS unit := redirect (sk_clear Cap) vec_clear.
  (** src/small_vec.rs 365: [as_slice]; the elements are returned by value. *)
  Definition sv_as_slice : MS (list T) :=
    redirect sk_as_slice (v <- get_fst; on_snd (vec_as_slice v)).
  (** src/small_vec.rs 367, 234-236: [shrink_to_fit]; nothing happens inline. *)
  Definition sv_shrink_to_fit : MS unit := redirect (ret tt) vec_shrink_to_fit.
  (** src/small_vec.rs 368, 238-240: [shrink_to]; nothing happens inline. *)
  Definition sv_shrink_to (m : N) : MS unit := redirect (ret tt) (vec_shrink_to m).
  (** src/small_vec.rs 369: [pop]. *)
  Definition sv_pop : MS (option T) := redirect (sk_pop Cap) vec_pop.
  (** src/small_vec.rs 370: [remove]. *)
  Definition sv_remove (i : N) : MS T := redirect (sk_remove Cap i) (vec_remove i).
  (** src/small_vec.rs 374: [truncate]. *)
  Definition sv_truncate (n : N) : MS unit := redirect (sk_truncate Cap n) (vec_truncate n).
  (** src/small_vec.rs 375: [swap_remove]. *)
  Definition sv_swap_remove (i : N) : MS T := redirect (sk_swap_remove Cap i) (vec_swap_remove i).
  (** Reading element [i] through [as_ptr] (src/small_vec.rs 371) or a slice. *)
  Definition sv_read (i : N) : MS T :=
    redirect (sk_read i) (v <- get_fst; on_snd (read_at (vdata v) i)).
  (** Writing element [i] through [as_mut_ptr] (src/small_vec.rs 372) or a slice. *)
  Definition sv_write (i : N) (x : T) : MS unit :=
    redirect (sk_write i x) (v <- get_fst; on_snd (write_at (vdata v) i x)).
  (** src/small_vec.rs 376-401: the closures' methods go through [RetainIter] and [ResizeWith]. *)
  Definition sv_retain {St} (f : St -> T -> St * option bool) (st : St) : MS St :=
    redirect (@retain _ _ _ (stack_vecx Cap) _ f st) (retain f st).
  (** src/small_vec.rs 376: [dedup_by]. *)
  Definition sv_dedup_by {St} (f : St -> T -> T -> St * (T * T) * option bool) (st : St) : MS St :=
    redirect (@dedup_by _ _ _ (stack_vecx Cap) _ f st) (dedup_by f st).
  (** src/small_vec.rs 381-391: [dedup]. *)
  Definition sv_dedup (eqb : T -> T -> bool) : MS unit :=
    redirect (@dedup _ _ _ (stack_vecx Cap) eqb) (dedup eqb).
  (** src/small_vec.rs 393-400: [dedup_by_key]. *)
  Definition sv_dedup_by_key {St K} (keq : K -> K -> bool) (key : St -> T -> St * T * option K)
    (st : St) : MS St :=
    redirect (@dedup_by_key _ _ _ (stack_vecx Cap) _ _ keq key st) (dedup_by_key keq key st).
  (** src/small_vec.rs 377: [resize_with]. *)
  Definition sv_resize_with (n : N) (g : nat -> option T) : MS unit :=
    redirect (@resize_fn _ _ _ (stack_vecx Cap) n g) (resize_fn n g).

  (** src/small_vec.rs 418-430: [is_heap], [is_stack]. *)
  Definition is_stack (s : SV) : bool := match sv_store s with Stack _ => true | Heap _ => false end.

  (** src/small_vec.rs 437-464: [try_move_to_heap_and_reserve_exact].  Replacing the storage drops
      the old inline storage, whose length is 0 by then. *)
  Definition sv_try_move_to_heap_and_reserve_exact (n : N) : MS (result unit aerr) :=
    s <- get_fst;
    match sv_store s with
    | Stack k =>
        m <- uadd (sk_len k) n;
        r <- on_snd (vec_try_with_capacity_and_marker (N.max m min_non_zero_cap) (sv_marker s));
        match r with
        | Err e => ret (Err e)
        | Ok v =>
            on_snd (if (t_size =? 0) || (sk_len k =? 0) then ret tt
                    else copy_in (vdata v) 0 (take (N.to_nat (sk_len k)) (sk_slots k))) ;;
            on_heap v (vec_set_len (sk_len k)) ;;
            ret (Ok tt)
        end
    | Heap v => on_heap v (vec_reserve_exact n) ;; ret (Ok tt)
    end.
  (** src/small_vec.rs 432-435: [move_to_heap]. *)
  Definition sv_move_to_heap : MS unit :=
    r <- sv_try_move_to_heap_and_reserve_exact 0; unwrap r.

  (** src/small_vec.rs 466-479: [try_reserve_exact]. *)
  Definition sv_try_reserve_exact (n : N) : MS (result unit aerr) :=
    s <- get_fst;
    match sv_store s with
    | Stack k =>
        m <- overflow_guarded_add (sk_len k) n;
        if Cap <? m then sv_try_move_to_heap_and_reserve_exact n else ret (Ok tt)
    | Heap v => on_heap v (vec_try_reserve_exact n)
    end.
  (** src/small_vec.rs 481-488: [try_reserve]. *)
  Definition sv_try_reserve (n : N) : MS (result unit aerr) :=
    s <- get_fst;
    m <- overflow_guarded_add (sv_capacity s) n;
    r <- usub (N.max min_non_zero_cap m) (sv_capacity s);
    sv_try_reserve_exact r.
  (** src/small_vec.rs 490-498. *)
  Definition sv_reserve (n : N) : MS unit := r <- sv_try_reserve n; unwrap r.
  (** src/small_vec.rs 495-498: [reserve_exact]. *)
  Definition sv_reserve_exact (n : N) : MS unit := r <- sv_try_reserve_exact n; unwrap r.

  (** src/small_vec.rs 500-529: [try_move_to_stack]; [true] is [Ok]. *)
  Definition sv_try_move_to_stack : MS bool :=
    s <- get_fst;
    match sv_store s with
    | Stack _ => ret true
    | Heap v =>
        if v_len v <=? Cap then
          l <- on_snd (if (t_size =? 0) || (v_len v =? 0) then ret []
                       else copy_out (vdata v) 0 (v_len v));
          put_fst (SVec (Stack (StackVec (l ++ drop (length l) (replicate (N.to_nat Cap) None))
                                         (v_len v))) (sv_marker s)) ;;
          on_snd (vec_dealloc_without_drop v) ;;
          ret true
        else ret false
    end.

  (** src/small_vec.rs 567-576: [push]. *)
  Definition sv_push (x : T) : MS unit :=
    on_unwind (sv_reserve 1) (on_snd (drop_val x)) ;;
    redirect (sk_unchecked_push Cap x) (vec_push x).

  (** src/small_vec.rs 578-587: [insert]. *)
  Definition sv_insert (i : N) (x : T) : MS unit :=
    on_unwind (sv_reserve 1) (on_snd (drop_val x)) ;;
    redirect (sk_unchecked_insert Cap i x) (vec_insert i x).

  (** Reading the first [n] slots, starting at [i], of a storage for a bitwise copy elsewhere, and
      writing such a copy. *)
  Definition store_out (st : store T) (i n : N) : M W (list (option T)) :=
    match st with
    | Heap v => copy_out (vdata v) i n
    | Stack k => if i + n <=? llen (sk_slots k)
                 then ret (take (N.to_nat n) (drop (N.to_nat i) (sk_slots k)))
                 else undef OutOfBounds
    end.
  (** Writing slots into a storage (the destination of the copies in src/small_vec.rs 552-565,
      624-640). *)
  Definition store_in (st : store T) (j : N) (l : list (option T)) : M W (store T) :=
    match st with
    | Heap v => copy_in (vdata v) j l ;; ret (Heap v)
    | Stack k =>
        let s := sk_slots k in
        if j + llen l <=? llen s
        then ret (Stack (StackVec (take (N.to_nat j) s ++ l ++ drop (N.to_nat j + length l) s)
                                  (sk_len k)))
        else undef OutOfBounds
    end.
  (** [copy_nonoverlapping] between the storages of two different vectors. *)
  Definition store_copy (src : store T) (i : N) (dst : store T) (j n : N) : M W (store T) :=
    if (t_size =? 0) || (n =? 0) then ret dst else
    l <- store_out src i n; store_in dst j l.

  (** src/small_vec.rs 552-565: [append]; [other] is returned updated. *)
  Definition sv_append (o : SV) : MS SV :=
    sv_reserve (sv_len o) ;;
    s <- get_fst;
    d <- on_snd (store_copy (sv_store o) 0 (sv_store s) (sv_len s) (sv_len o));
    put_fst (SVec d (sv_marker s)) ;;
    n <- uadd (sv_len s) (sv_len o);
    sv_set_len n ;;
    ret (SVec (match sv_store o with
               | Stack k => Stack (StackVec (sk_slots k) 0)
               | Heap v => Heap (Vec (v_ptr v) 0)
               end) (sv_marker o)).

  (** The loop of [extend_from_slice] (src/small_vec.rs 613-621). *)
  Fixpoint sv_push_clones (l : list T) : MS unit :=
    match l with
    | [] => ret tt
    | x :: l => y <- on_snd (clone_val x); sv_push y ;; sv_push_clones l
    end.
  (** src/small_vec.rs 613-621: [extend_from_slice]. *)
  Definition sv_extend_from_slice (l : list T) : MS unit :=
    sv_reserve (llen l) ;; sv_push_clones l.

  (** The loop of [extend] (src/small_vec.rs 976-994); [None]: the iterator panics. *)
  Fixpoint sv_push_all (it : list (option T)) : MS unit :=
    match it with
    | [] => ret tt
    | Some x :: it => sv_push x ;; sv_push_all it
    | None :: _ => throw PUser
    end.
  (** src/small_vec.rs 976-994: [Extend]; [hint] is the lower bound of [size_hint]. *)
  Definition sv_extend (it : list (option T)) (hint : N) : MS unit :=
    sv_reserve hint ;; sv_push_all it.

  (** src/small_vec.rs 403-416: [resize]. *)
  Definition sv_resize (n : N) (x : T) : MS unit :=
    on_unwind
      (if Cap <? n then m <- usub n Cap; sv_reserve m else ret tt) (on_snd (drop_val x)) ;;
    redirect (@resize_val _ _ _ _ (stack_vecx Cap) n x) (resize_val n x).

  (** [Drop] of the storage: of the inline vector or of the heap vector. *)
  Definition sv_drop : MS unit := redirect sk_drop vec_drop.
  (** The same for a vector held by value (drop glue of [SmallVec]; src/small_vec.rs 725-731 inline,
      src/vec.rs 977-990 on the heap). *)
  Definition sv_drop_val (s : SV) : M W unit := fun w =>
    let '(r, (_, w')) := sv_drop (s, w) in (r, w').

  (** src/small_vec.rs 900-912: indexing is [get(i).unwrap()]; the assignment drops the old
      element. *)
  Definition sv_index (i : N) : MS T :=
    s <- get_fst; if i <? sv_len s then sv_read i else throw PUnwrap.
  (** src/small_vec.rs 908-912: [IndexMut], used for [v[i] = x]. *)
  Definition sv_assign (i : N) (x : T) : MS unit :=
    s <- get_fst;
    if i <? sv_len s then
      old <- sv_read i;
      sv_write i x ;;
      on_snd (drop_val old)
    else on_unwind (throw PUnwrap) (on_snd (drop_val x)).
  (** [get(i)] (slice method through [Deref], src/small_vec.rs 817-829). *)
  Definition sv_get (i : N) : MS (option T) :=
    s <- get_fst; if i <? sv_len s then x <- sv_read i; ret (Some x) else ret None.

  (** src/small_vec.rs 644-684: [Vecx for SmallVec] (used by [drain], src/small_vec.rs 609-611). *)
  Global Instance small_vecx : Vecx T (svec T) := {
    vx_len := sv_len;
    vx_set_len := sv_set_len;
    vx_read := sv_read;
    vx_write := sv_write;
    vx_drop_at i := redirect (sk_drop_at i) (v <- get_fst; on_snd (drop_at (vdata v) i));
    vx_copy i j n :=
      redirect (sk_copy i j n) (v <- get_fst; on_snd (copy_at (vdata v) i (vdata v) j n));
    vx_copy_no i j n :=
      redirect (sk_copy_no i j n)
        (v <- get_fst; on_snd (copy_nonoverlapping (vdata v) i (vdata v) j n));
    vx_truncate := sv_truncate;
    vx_push := sv_push;
    vx_reserve_exact := sv_reserve_exact
  }.

  (** src/small_vec.rs 531-540: [into_boxed_slice]; 542-550: [into_vec]. *)
  Definition sv_into_vec (s : SV) : M W vec :=
    r <- with_local s sv_move_to_heap sv_drop;
    match sv_store (snd r) with Heap v => ret v | Stack _ => throw PAssert end.
  (** src/small_vec.rs 531-540: [into_boxed_slice]. *)
  Definition sv_into_boxed_slice (s : SV) : M W sptr := v <- sv_into_vec s; vec_into_boxed_slice v.

  (** src/small_vec.rs 920-926: [From<&[T]>]; 867-872: [Clone]. *)
  Definition sv_from_slice (l : list T) : M W SV :=
    n <- sv_with_capacity (llen l);
    r <- with_local n (sv_extend_from_slice l) sv_drop;
    ret (snd r).
  (** src/small_vec.rs 867-872: [Clone]. *)
  Definition sv_clone (s : SV) : M W SV := fun w =>
    match sv_as_slice (s, w) with
    | (Ret l, (_, w')) => sv_from_slice l w'
    | (Panic p, (_, w')) => (Panic p, w')
    | (Abort, (_, w')) => (Abort, w')
    | (UB u, (_, w')) => (UB u, w')
    end.

  (** src/small_vec.rs 934-958: [From<[T; L]>]; the inline vector's length is not set. *)
  Definition sv_from_array (l : list T) : M W SV :=
    if llen l <=? Cap then
      d <- store_copy (Stack (StackVec (Some <$> l) 0)) 0 (Stack (sk_new Cap)) 0 (llen l);
      ret (SVec d MNone)
    else v <- vec_from_array l; ret (SVec (Heap v) MNone).

  (** src/small_vec.rs 960-968: [From<Vec<T>>]; 970-974: [From<Box<[T]>>]. *)
  Definition sv_from_vec (v : vec) : SV := SVec (Heap v) (vmarker v).
  (** src/small_vec.rs 970-974: [From<Box<[T]>>]. *)
  Definition sv_from_box (b : sptr) : SV := sv_from_vec (vec_from_box b).

  (** src/small_vec.rs 996-1002: [FromIterator]. *)
  Definition sv_from_iter (it : list (option T)) (hint : N) : M W SV :=
    r <- with_local sv_new (sv_extend it hint) sv_drop;
    ret (snd r).

  (** src/small_vec.rs 880-898, 914-918: comparisons and hashing through [as_slice]. *)
  Definition sv_slice (s : SV) : M W (list T) := fun w =>
    let '(r, (_, w')) := sv_as_slice (s, w) in (r, w').
  (** src/small_vec.rs 880-884: [PartialEq]. *)
  Definition sv_eq (eqb : T -> T -> bool) (s1 s2 : SV) : M W bool :=
    a <- sv_slice s1; b <- sv_slice s2; ret (slice_eq eqb a b).
  (** src/small_vec.rs 888-898: [PartialOrd], [Ord]. *)
  Definition sv_cmp (cmp : T -> T -> comparison) (s1 s2 : SV) : M W comparison :=
    a <- sv_slice s1; b <- sv_slice s2; ret (slice_cmp cmp a b).
  (** src/small_vec.rs 914-918: [Hash]. *)
  Definition sv_hash {H} (hlen : H -> N -> H) (hel : H -> T -> H) (h : H) (s : SV) : M W H :=
    a <- sv_slice s; ret (slice_hash hlen hel h a).
End small_model.

Section small_split.
  Context `{!Env} {T : Type} `{!Elem T} (Cap Len : N).
  Notation W := (world T).
  (** src/small_vec.rs 623-638: [split_off] (with [Len = Cap]) and [split_off_into]. *)
  Definition sv_split_off_into (at_ : N) : M (svec T * W) (svec T) :=
    s <- get_fst;
    if at_ <? sv_len s then
      count <- usub (sv_len s) at_;
      o <- on_snd (sv_with_capacity Len count);
      d <- on_snd (store_copy (sv_store s) at_ (sv_store o) 0 count);
      n <- usub (sv_len s) count;
      sv_set_len Cap n ;;
      r <- on_snd (with_local (SVec d (sv_marker o)) (sv_set_len Len count) (ret tt));
      ret (snd r)
    else throw PUnwrap.
End small_split.
