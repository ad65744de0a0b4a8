(** Model of [Debug] and [Display] of the containers: src/vec.rs 885-889, src/small_vec.rs 874-878,
    src/string.rs 398-410.  The output is the list of bytes handed to a formatter without flags; what the
    elements write is a parameter, and neither they nor the formatter fail (simplification). *)
From Verif Require Export StrModel SmallModel.

(** core: [Debug] of a slice, [f.debug_list().entries(..).finish()]. *)
Fixpoint debug_entries {T} (dbg : T -> list N) (first : bool) (xs : list T) : list N :=
  match xs with
  | [] => []
  | x :: xs => (if first then [] else [44; 32]) ++ dbg x ++ debug_entries dbg false xs
  end.
(** The whole of it: brackets around the entries (core, behind [Debug] of src/vec.rs and
    src/small_vec.rs 874-878). *)
Definition slice_debug {T} (dbg : T -> list N) (xs : list T) : list N :=
  [91] ++ debug_entries dbg true xs ++ [93].

Section debug_model.
  Context {EN : Env}.
  (** src/vec.rs 885-889: [Debug for Vec]. *)
  Definition vec_fmt_debug {T} {EL : Elem T} (dbg : T -> list N) (v : vec) : M (world T) (list N) :=
    xs <- vec_as_slice v; ret (slice_debug dbg xs).
  (** src/small_vec.rs 874-878: [Debug for SmallVec]. *)
  Definition sv_fmt_debug {T} {EL : Elem T} (dbg : T -> list N) (s : svec T) : M (world T) (list N) :=
    xs <- sv_slice s; ret (slice_debug dbg xs).
  Local Existing Instance u8.
  (** src/string.rs 398-403: [Display for String] is that of [str], which writes the text. *)
  Definition str_fmt_display (v : vec) : M (world N) (list N) := vec_as_slice v.
  (** src/string.rs 405-410: [Debug for String] calls [Display]. *)
  Definition str_fmt_debug (v : vec) : M (world N) (list N) := str_fmt_display v.
End debug_model.
