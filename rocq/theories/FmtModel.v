(** Model of formatted writing into a [String] and of [IndexMut] on it: src/string.rs 587-626, 645-657. *)
From Verif Require Export StrModel.

(** What a [Display] implementation does with the writer it is given: it hands over texts and characters, and
    may give up ([FErr], a returned error) or panic ([FPanic]). *)
Inductive fpart := FStr (s : list N) | FChar (c : N) | FErr | FPanic.

Section fmt_model.
  Context {EN : Env}.
  Local Existing Instance u8.
  Notation W := (world N).
  Notation MS := (M (vec * W)).

  (** src/string.rs 646-650: [write_str]. *)
  Definition str_write_str (s : list N) : MS (result unit unit) := str_push_str s ;; ret (Ok tt).
  (** src/string.rs 652-656: [write_char]. *)
  Definition str_write_char (c : N) : MS (result unit unit) := str_push c ;; ret (Ok tt).

  (** [write!(s, "{}", x)]: [core::fmt] passes every part on and stops at the first error. *)
  Fixpoint str_write_fmt (l : list fpart) : MS (result unit unit) :=
    match l with
    | [] => ret (Ok tt)
    | p :: l =>
        r <- match p with
             | FStr s => str_write_str s
             | FChar c => str_write_char c
             | FErr => ret (Err tt)
             | FPanic => throw PUser
             end;
        match r with Ok _ => str_write_fmt l | Err _ => ret (Err tt) end
    end.

  (** src/string.rs 587-626: [IndexMut].  The [str] it gives is used to map its bytes in place, as
      [make_ascii_uppercase] does.  The ranges are checked by core as for [Index] (see [str_range]). *)
  Definition bound_start (lo : bound) : N :=
    match lo with Unbounded => 0 | Included n => n | Excluded n => n + 1 end.
  (** src/string.rs 587-626: [IndexMut], then a call that maps the bytes of the [str] in place. *)
  Definition str_index_map (lo hi : bound) (g : N -> N) : MS unit :=
    bs <- str_bytes;
    sub <- str_range bs lo hi;
    v <- get_fst;
    on_snd (if llen sub =? 0 then ret tt else copy_in (vdata v) (bound_start lo) (Some <$> (g <$> sub))).
End fmt_model.
