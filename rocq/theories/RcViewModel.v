(** Model of the impls of src/rc.rs that look at the shared value: comparisons (229-247), [Hash]
    (223-227), [Debug] and [Display] (205-215) of [Rc], and [Debug] of [Weak] (324-336).  Text is a
    list of characters; what the impls of [T] write for a value is given by a function. *)
From Verif Require Export RcModel.

(** The literals of rc.rs 328, 330 and 333, as character codes. *)
Definition weak_open : list N := [40; 87; 101; 97; 107; 40].                                  (* (Weak( *)
Definition weak_close : list N := [41; 41].                                                   (* )) *)
Definition weak_dead : list N :=
  [40; 87; 101; 97; 107; 32; 100; 101; 97; 108; 108; 111; 99; 97; 116; 101; 100; 41].  (* (Weak deallocated) *)
Definition weak_null : list N := [40; 87; 101; 97; 107; 32; 110; 117; 108; 108; 41].          (* (Weak null) *)

Section rc_view.
  Context {EN : Env} {T : Type} {EL : Elem T}.
  Local Existing Instance box_elem.
  Notation St := (list T * world (rcbox T))%type.

  (** src/rc.rs 223-227: [Hash] through the value; [h] is the state of the hasher. *)
  Definition rc_hash {H} (hash : H -> T -> H) (h : H) (p : sptr) : M St H :=
    x <- rc_as_ref p; ret (hash h x).

  (** src/rc.rs 205-209: [Debug]; 211-215: [Display]. *)
  Definition rc_fmt (fmt : T -> list N) (p : sptr) : M St (list N) :=
    x <- rc_as_ref p; ret (fmt x).

  (** src/rc.rs 324-336: [Debug for Weak]. *)
  Definition weak_fmt (fmt : T -> list N) (o : option sptr) : M St (list N) :=
    match o with
    | Some p =>
        b <- rc_inner p;
        if is_dealloc b then ret weak_dead
        else x <- maybe_ref (r_val b); ret (weak_open ++ fmt x ++ weak_close)
    | None => ret weak_null
    end.
End rc_view.
