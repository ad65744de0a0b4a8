(** Model of [Rc<dyn Any>::downcast] (src/rc.rs 151-159).  The crate itself cannot turn an [Rc<T>] into an
    [Rc<dyn Any>] (it has no unsized coercion), so the function is studied on handles of any origin: [is]
    tells of which values the type is the one asked for. *)
From Verif Require Export RcModel.

Section cast_model.
  Context {EN : Env} {T : Type} {EL : Elem T}.
  Local Existing Instance box_elem.
  Notation St := (list T * world (rcbox T))%type.

  (** src/ptr.rs 125-132 and 67-76: [ScopePtr::clone] followed by [cast] copies the pointer, its allocator and
      its marker.  [self] is not forgotten: it is dropped when [Ok] is returned (rc.rs 154), and handed back in
      [Err] (156).  [inl]: [Ok], [inr]: [Err]. *)
  Definition rc_downcast (is : T -> bool) (p : sptr) : M St (sptr + sptr) :=
    x <- rc_as_ref p;
    if is x then rc_drop p ;; ret (inl p) else ret (inr p).
End cast_model.
