(** Model of the spare capacity of [Vec] and [SmallVec]: src/vec.rs 164-185, src/small_vec.rs 242-245,
    373, 591-607, and of its use by a caller. *)
From Verif Require Export SmallModel.

Section spare_model.
  Context `{!Env} {T : Type} `{!Elem T}.
  Notation W := (world T).
  Notation MV := (M (vec * W)).

  (** src/vec.rs 182-185: [spare_len]. *)
  Definition vec_spare_len (v : vec) : MV N := usub (vcap v) (v_len v).
  (** src/vec.rs 413-416: [is_full]. *)
  Definition vec_is_full (v : vec) : bool := v_len v =? vcap v.
  (** src/vec.rs 164-180: [spare_capacity], [spare_capacity_mut]: the slots from the length on, as a slice of
      [MaybeUninit]; an empty slice needs no memory. *)
  Definition vec_spare : MV (list (option T)) :=
    v <- get_fst;
    n <- vec_spare_len v;
    if n =? 0 then ret [] else on_snd (copy_out (vdata v) (v_len v) n).
  (** The caller writes one slot: [v.spare_capacity_mut()[i].write(x)]. *)
  Definition vec_spare_write (i : N) (x : T) : MV unit :=
    v <- get_fst;
    n <- vec_spare_len v;
    if i <? n then on_snd (write_at (vdata v) (v_len v + i) x) else throw PIndex.
  (** The caller fills the first slots and then declares them: the documented use of [set_len]. *)
  Fixpoint vec_spare_writes (i : N) (l : list T) : MV unit :=
    match l with
    | [] => ret tt
    | x :: l => vec_spare_write i x ;; vec_spare_writes (i + 1) l
    end.
  (** The caller's code: the slots, then [set_len] (src/vec.rs). *)
  Definition vec_fill_spare (l : list T) : MV unit :=
    vec_spare_writes 0 l ;;
    v <- get_fst;
    n <- uadd (v_len v) (llen l);
    vec_set_len n.

  Context (Cap : N).
  Notation MS := (M (svec T * W)).
  (** src/small_vec.rs 242-245, 373: [spare_len]. *)
  Definition sv_spare_len (s : svec T) : MS N := usub (sv_capacity Cap s) (sv_len s).
  (** src/small_vec.rs 591-607: [spare_capacity], [spare_capacity_mut]. *)
  Definition sv_spare : MS (list (option T)) :=
    s <- get_fst;
    n <- sv_spare_len s;
    if n =? 0 then ret [] else
    match sv_store s with
    | Stack k => ret (take (N.to_nat n) (drop (N.to_nat (sk_len k)) (sk_slots k)))
    | Heap v => on_snd (copy_out (vdata v) (v_len v) n)
    end.
  (** The caller writes one slot of [spare_capacity_mut] (src/small_vec.rs 600-607). *)
  Definition sv_spare_write (i : N) (x : T) : MS unit :=
    s <- get_fst;
    n <- sv_spare_len s;
    if i <? n then sv_write (sv_len s + i) x else throw PIndex.
End spare_model.
