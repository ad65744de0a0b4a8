(** Model of src/rc.rs (and of [MaybeDropped], src/marker.rs 18-22, 142-170).

    The counters are ordinary memory of the allocated [RcBox].  The state of a computation is the
    log of destructors of [T] that were run by this code, and the world holding the [RcBox]es.
    [downcast] (rc.rs 151-159) is in CastModel.v.  Not modelled: [Debug]/[Display] (see RcViewModel.v),
    [From<Box>] (rc.rs 217-221; it starts with [Box::into_inner], which is undefined, see C03). *)
From Verif Require Export PtrModel.

(** src/marker.rs 18-22: [MaybeDropped] is [ManuallyDrop]; [Moved] records that the value was moved
    out by [ptr::read]. *)
Inductive mdrop (T : Type) := Val (x : T) | Moved.
Arguments Val {T}. Arguments Moved {T}.

(** src/rc.rs 14-18: [RcBox]. *)
Record rcbox (T : Type) := RcBox { r_strong : N; r_weak : N; r_val : mdrop T }.
Arguments RcBox {T}. Arguments r_strong {T}. Arguments r_weak {T}. Arguments r_val {T}.

(** Layout of [RcBox<T>]: two words and [T], padded.  It has no drop glue because [MaybeDropped]
    has none.  (The padding is that of the smallest field order; only positivity matters.) *)
Definition box_align {T} (EL : Elem T) : N := N.max 8 (@t_align T EL).
Lemma box_align_pos {T} (EL : Elem T) : 0 < box_align EL.
Proof. unfold box_align. lia. Qed.
(** src/rc.rs 14-18: [RcBox<T>] as an element type. *)
Definition rcbox_elem {T} (EL : Elem T) : Elem (rcbox T) :=
  {| t_size := (16 + @t_size T EL + box_align EL - 1) / box_align EL * box_align EL;
     t_align := box_align EL;
     t_name := @t_name T EL;
     t_needs_drop := false;
     t_drop_panics := fun _ => false;
     t_clone := fun _ => None;
     t_zst := RcBox 0 0 Moved;
     t_align_pos := box_align_pos EL |}.

Section rc_model.
  Context {EN : Env} {T : Type} {EL : Elem T}.
  Local Instance box_elem : Elem (rcbox T) := rcbox_elem EL.
  Notation W := (world (rcbox T)).
  Notation St := (list T * W)%type.

  (** src/rc.rs 57: [Rc] is a [ManuallyDrop<ScopePtr<RcBox>>]; 61-68: [inner], [inner_mut]. *)
  Definition rc_inner (p : sptr) : M St (rcbox T) := on_snd (sp_deref p).
  (** Writing the (interior mutable) box. *)
  Definition rc_set (p : sptr) (b : rcbox T) : M St unit := on_snd (sp_assign p b).

  (** src/marker.rs 156-163: [MaybeDropped::as_ref], [as_mut]; the reference must be to a value. *)
  Definition maybe_ref (v : mdrop T) : M St T :=
    match v with Val x => ret x | Moved => undef UseAfterMove end.

  (** [drop_in_place] of a [MaybeDropped<T>] (rc.rs 165) and of a [ManuallyDrop<ScopePtr>] (rc.rs
      172, 350): [ManuallyDrop] has no drop glue, so nothing happens. *)
  Definition drop_manually {A} (_ : A) : M St unit := ret tt.

  (** src/rc.rs 22-24: [RcBox::is_single_ref]. *)
  Definition is_single_ref (b : rcbox T) : bool := (r_strong b =? 1) && (r_weak b =? 0).
  (** src/rc.rs 27-29: [RcBox::is_dealloc]. *)
  Definition is_dealloc (b : rcbox T) : bool := r_strong b =? 0.
  (** src/rc.rs 32-34: [dec_strong]; [Cell::replace] returns the old value. *)
  Definition dec_strong (p : sptr) : M St N :=
    b <- rc_inner p; n <- usub (r_strong b) 1;
    rc_set p (RcBox n (r_weak b) (r_val b)) ;; ret (r_strong b).
  (** src/rc.rs 37-39: [set_zero_strong]. *)
  Definition set_zero_strong (p : sptr) : M St unit :=
    b <- rc_inner p; rc_set p (RcBox 0 (r_weak b) (r_val b)).
  (** src/rc.rs 42-44: [inc_strong]. *)
  Definition inc_strong (p : sptr) : M St N :=
    b <- rc_inner p; n <- uadd (r_strong b) 1;
    rc_set p (RcBox n (r_weak b) (r_val b)) ;; ret (r_strong b).
  (** src/rc.rs 47-49: [dec_weak]. *)
  Definition dec_weak (p : sptr) : M St N :=
    b <- rc_inner p; n <- usub (r_weak b) 1;
    rc_set p (RcBox (r_strong b) n (r_val b)) ;; ret (r_weak b).
  (** src/rc.rs 52-54: [inc_weak]. *)
  Definition inc_weak (p : sptr) : M St N :=
    b <- rc_inner p; n <- uadd (r_weak b) 1;
    rc_set p (RcBox (r_strong b) n (r_val b)) ;; ret (r_weak b).

  (** src/rc.rs 178-181: [AsRef]; 184-195: [Deref], [Borrow]. *)
  Definition rc_as_ref (p : sptr) : M St T := b <- rc_inner p; maybe_ref (r_val b).
  (** src/rc.rs 104-106: [as_mut], used to exchange the value ([mem::replace]) by the caller. *)
  Definition rc_replace (p : sptr) (y : T) : M St T :=
    b <- rc_inner p; x <- maybe_ref (r_val b);
    rc_set p (RcBox (r_strong b) (r_weak b) (Val y)) ;; ret x.

  (** src/rc.rs 74-77: [Rc::downgrade]; the new [Weak] copies the pointer (marker.rs 190-194). *)
  Definition rc_downgrade (p : sptr) : M St (option sptr) := inc_weak p ;; ret (Some p).
  (** src/rc.rs 79-85: [weak_count], [strong_count]. *)
  Definition rc_weak_count (p : sptr) : M St N := b <- rc_inner p; ret (r_weak b).
  (** src/rc.rs 83-85: [strong_count]. *)
  Definition rc_strong_count (p : sptr) : M St N := b <- rc_inner p; ret (r_strong b).

  (** src/rc.rs 87-93: [Rc::get_mut]; the caller exchanges the value through the reference. *)
  Definition rc_get_mut (p : sptr) (y : T) : M St (option T) :=
    b <- rc_inner p;
    if is_single_ref b then x <- rc_replace p y; ret (Some x) else ret None.

  (** src/rc.rs 95-97: [Rc::ptr_eq]. *)
  Definition rc_ptr_eq (p q : sptr) : M St bool := ret (bool_decide (sp_ptr p = sp_ptr q)).

  (** src/rc.rs 110-119: [Rc::new]. *)
  Definition rc_new (x : T) : M St sptr :=
    on_snd (r <- sp_alloc_val (RcBox 1 0 (Val x)) (Selector MNone (@t_name T EL)); unwrap r).

  (** src/rc.rs 161-175: [Drop for Rc]. *)
  Definition rc_drop (p : sptr) : M St unit :=
    n <- rc_strong_count p;
    (if n =? 1 then b <- rc_inner p; drop_manually (r_val b) else dec_strong p ;; ret tt) ;;
    n <- rc_strong_count p;
    k <- rc_weak_count p;
    if (n =? 0) && (k =? 0) then drop_manually p else ret tt.

  (** src/rc.rs 198-203: [Clone for Rc]. *)
  Definition rc_clone (p : sptr) : M St sptr := inc_strong p ;; ret p.

  (** src/rc.rs 121-128: [Rc::try_unwrap].  [ptr::read] moves the value out; [this] is dropped when
      the function returns [Ok].  ([rc_drop] cannot panic there, so the value is not dropped.) *)
  Definition rc_try_unwrap (p : sptr) : M St (option T) :=
    n <- rc_strong_count p;
    if n =? 1 then
      b <- rc_inner p;
      x <- maybe_ref (r_val b);
      rc_set p (RcBox (r_strong b) (r_weak b) Moved) ;;
      rc_drop p ;;
      ret (Some x)
    else ret None.

  (** [*this = new]: the old [Rc] is dropped; the new one is stored even when that panics. *)
  Definition rc_assign (new : sptr) : M (sptr * St) unit := fun s =>
    let '(r, st) := rc_drop (fst s) (snd s) in (r, (new, st)).

  (** [T::clone], supplied by the user. *)
  Definition clone_T (x : T) : M St T :=
    match t_clone x with Some y => ret y | None => throw PUser end.

  (** src/rc.rs 130-148: [Rc::make_mut]; [this] is the first component of the state.  The caller
      exchanges the value through the reference returned (line 147).  When [Rc::new] panics on line
      141 the value read out is lost (it is inside a [MaybeDropped]). *)
  Definition rc_make_mut (y : T) : M (sptr * St) T :=
    this <- get_fst;
    n <- on_snd (rc_strong_count this);
    (if n =? 1 then
       k <- on_snd (rc_weak_count this);
       if negb (k =? 0) then
         b <- on_snd (rc_inner this);
         x <- on_snd (maybe_ref (r_val b));
         on_snd (rc_set this (RcBox (r_strong b) (r_weak b) Moved)) ;;
         on_snd (set_zero_strong this) ;;
         new <- on_snd (rc_new x);
         rc_assign new
       else ret tt
     else
       x <- on_snd (rc_as_ref this);
       c <- on_snd (clone_T x);
       new <- on_snd (rc_new c);
       rc_assign new) ;;
    this <- get_fst;
    on_snd (rc_replace this y).

  (** src/rc.rs 249: [Weak]; 252-254: [Weak::new] is [None]. *)
  Definition weak_new : option sptr := None.

  (** src/rc.rs 264-276: [Weak::upgrade]. *)
  Definition weak_upgrade (o : option sptr) : M St (option sptr) :=
    match o with
    | Some p => b <- rc_inner p;
                if negb (is_dealloc b) then inc_strong p ;; ret (Some p) else ret None
    | None => ret None
    end.

  (** src/rc.rs 278-292: [Weak::strong_count], [Weak::weak_count]. *)
  Definition weak_strong_count (o : option sptr) : M St N :=
    match o with Some p => rc_strong_count p | None => ret 0 end.
  (** src/rc.rs 286-292: [Weak::weak_count]. *)
  Definition weak_weak_count (o : option sptr) : M St N :=
    match o with Some p => rc_weak_count p | None => ret 0 end.

  (** src/rc.rs 294-298: [Weak::ptr_eq]. *)
  Definition weak_ptr_eq (o o' : option sptr) : M St bool :=
    ret (bool_decide ((sp_ptr <$> o) = (sp_ptr <$> o'))).

  (** src/rc.rs 313-322: [Clone for Weak]. *)
  Definition weak_clone (o : option sptr) : M St (option sptr) :=
    match o with Some p => inc_weak p ;; ret (Some p) | None => ret weak_new end.

  (** src/rc.rs 344-355: [Drop for Weak]. *)
  Definition weak_drop (o : option sptr) : M St unit :=
    match o with
    | Some p =>
        k <- dec_weak p;
        n <- rc_strong_count p;
        if (k =? 0) && (n =? 0) then drop_manually p else ret tt
    | None => ret tt
    end.

  (** src/rc.rs 229-247: comparisons go through the values. *)
  Definition rc_cmp {C} (f : T -> T -> C) (p q : sptr) : M St C :=
    x <- rc_as_ref p; y <- rc_as_ref q; ret (f x y).
End rc_model.

(** ** Programs: a table of handles and calls on them *)

Inductive handle := HRc (p : sptr) | HWeak (o : option sptr).

(** The calls.  Handles are named by their position in the table; new handles go to its end. *)
Inductive rop (T : Type) :=
| RNew (x : T)
| RClone (i : nat)
| RDrop (i : nat)
| RDowngrade (i : nat)
| RRead (i : nat)
| RCounts (i : nat)
| RGetMut (i : nat) (y : T)       (* exchange the value with [y] through [get_mut] *)
| RMakeMut (i : nat) (y : T)      (* exchange the value with [y] through [make_mut] *)
| RTryUnwrap (i : nat)
| RPtrEq (i j : nat)
| RWNew
| RWUpgrade (i : nat)
| RWClone (i : nat)
| RWDrop (i : nat)
| RWCounts (i : nat)
| RWPtrEq (i j : nat).
Arguments RNew {T}. Arguments RClone {T}. Arguments RDrop {T}. Arguments RDowngrade {T}.
Arguments RRead {T}. Arguments RCounts {T}. Arguments RGetMut {T}. Arguments RMakeMut {T}.
Arguments RTryUnwrap {T}. Arguments RPtrEq {T}. Arguments RWNew {T}. Arguments RWUpgrade {T}.
Arguments RWClone {T}. Arguments RWDrop {T}. Arguments RWCounts {T}. Arguments RWPtrEq {T}.

(** What a call returns.  [RIll]: no such handle (such a program does not type check). *)
Inductive robs (T : Type) :=
| RIll | RDone | RGot (x : T) | RMaybe (o : option T) | RNums (strong weak : N) | RBool (b : bool).
Arguments RIll {T}. Arguments RDone {T}. Arguments RGot {T}. Arguments RMaybe {T}.
Arguments RNums {T}. Arguments RBool {T}.

Section rc_run.
  Context {EN : Env} {T : Type} {EL : Elem T}.
  Notation St := (list T * world (rcbox T))%type.
  Notation Rst := (list (option handle) * St)%type.

  (** A new handle gets the next name (no counterpart in src/rc.rs). *)
  Definition push_handle (h : handle) : M Rst unit := fun s => (Ret tt, (fst s ++ [Some h], snd s)).
  (** A handle is moved or dropped, its name is no longer used (no counterpart in src/rc.rs). *)
  Definition kill_handle (i : nat) : M Rst unit := fun s => (Ret tt, (<[i := None]> (fst s), snd s)).
  (** Look up an [Rc] by its name (no counterpart in src/rc.rs). *)
  Definition with_rc (i : nat) (k : sptr -> M Rst (robs T)) : M Rst (robs T) := fun s =>
    match fst s !! i with Some (Some (HRc p)) => k p s | _ => (Ret RIll, s) end.
  (** Look up a [Weak] by its name (no counterpart in src/rc.rs). *)
  Definition with_weak (i : nat) (k : option sptr -> M Rst (robs T)) : M Rst (robs T) := fun s =>
    match fst s !! i with Some (Some (HWeak o)) => k o s | _ => (Ret RIll, s) end.

  (** One call of the program, each by the function above that models it (src/rc.rs). *)
  Definition rexec (op : rop T) : M Rst (robs T) :=
    match op with
    | RNew x => p <- on_snd (rc_new x); push_handle (HRc p) ;; ret RDone
    | RClone i => with_rc i (fun p => q <- on_snd (rc_clone p); push_handle (HRc q) ;; ret RDone)
    | RDrop i => with_rc i (fun p => kill_handle i ;; on_snd (rc_drop p) ;; ret RDone)
    | RDowngrade i =>
        with_rc i (fun p => o <- on_snd (rc_downgrade p); push_handle (HWeak o) ;; ret RDone)
    | RRead i => with_rc i (fun p => x <- on_snd (rc_as_ref p); ret (RGot x))
    | RCounts i =>
        with_rc i (fun p => n <- on_snd (rc_strong_count p); k <- on_snd (rc_weak_count p);
                            ret (RNums n k))
    | RGetMut i y => with_rc i (fun p => o <- on_snd (rc_get_mut p y); ret (RMaybe o))
    | RMakeMut i y =>
        with_rc i (fun p s =>
          let '(r, (p', st)) := rc_make_mut y (p, snd s) in
          (match r with
           | Ret x => Ret (RGot x) | Panic e => Panic e | Abort => Abort | UB u => UB u
           end, (<[i := Some (HRc p')]> (fst s), st)))
    | RTryUnwrap i =>
        with_rc i (fun p => o <- on_snd (rc_try_unwrap p);
                            (match o with Some _ => kill_handle i | None => ret tt end) ;;
                            ret (RMaybe o))
    | RPtrEq i j => with_rc i (fun p => with_rc j (fun q => b <- on_snd (rc_ptr_eq p q); ret (RBool b)))
    | RWNew => push_handle (HWeak weak_new) ;; ret RDone
    | RWUpgrade i =>
        with_weak i (fun o => r <- on_snd (weak_upgrade o);
                              match r with
                              | Some p => push_handle (HRc p) ;; ret (RBool true)
                              | None => ret (RBool false)
                              end)
    | RWClone i => with_weak i (fun o => o' <- on_snd (weak_clone o); push_handle (HWeak o') ;; ret RDone)
    | RWDrop i => with_weak i (fun o => kill_handle i ;; on_snd (weak_drop o) ;; ret RDone)
    | RWCounts i =>
        with_weak i (fun o => n <- on_snd (weak_strong_count o); k <- on_snd (weak_weak_count o);
                              ret (RNums n k))
    | RWPtrEq i j =>
        with_weak i (fun o => with_weak j (fun o' => b <- on_snd (weak_ptr_eq o o'); ret (RBool b)))
    end.

  (** A history: after a caught panic the next call is made; undefined behaviour and aborts end it. *)
  Fixpoint rrun (ops : list (rop T)) (s : Rst) : list (res (robs T)) * Rst :=
    match ops with
    | [] => ([], s)
    | op :: ops =>
        match rexec op s with
        | (Ret a, s') => let '(outs, s'') := rrun ops s' in (Ret a :: outs, s'')
        | (Panic p, s') => let '(outs, s'') := rrun ops s' in (Panic p :: outs, s'')
        | (r, s') => ([r], s')
        end
    end.
End rc_run.
