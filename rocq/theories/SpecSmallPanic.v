(** Specification of [SmallVec] histories when destructors of elements may panic. *)
From Verif Require Import Base PtrModel SpecVec SpecDrop SpecPanic SpecSmall.

Section spec.
  Context {T : Type} (panics : T -> bool) (may_refuse : Prop) (clone : T -> option T).

  (** One call on contents [xs] held inline if [b].  The contents, the values taken in, destroyed
      and lost are those of [sspec]; the outcome is adjusted by [settle].  The exception is [clear],
      which stops at the first panicking destructor.  On the heap the vector then still shows all
      elements; inline it shows none, and the elements after the panicking one are lost. *)
  Inductive dsspec (b : bool) :
    list T -> sop T -> list T -> res (vret T) -> list T -> list T -> list T -> Prop :=
  | ds_call xs op ins o xs' ds ls :
      sspec may_refuse clone b xs op ins o xs' ds ls -> (op = SClear -> culprits panics xs = []) ->
      dsspec b xs op ins (settle panics o ds) xs' ds ls
  | ds_clear_heap xs : b = false -> culprits panics xs <> [] ->
      dsspec b xs SClear [] (Panic PDrop) xs (up_to panics 1 xs) []
  | ds_clear_inline xs ls : b = true -> culprits panics xs <> [] -> xs = up_to panics 1 xs ++ ls ->
      dsspec b xs SClear [] (Panic PDrop) [] (up_to panics 1 xs) ls.

  (** A history whose panics are caught; each call is observed with whether the contents were
      inline before it. *)
  Inductive dstrace : list T -> list (sop T) -> list T -> list (bool * res (vret T)) ->
    list T -> list T -> list T -> Prop :=
  | dst_nil xs : dstrace xs [] [] [] xs [] []
  | dst_cons xs op ops i1 i2 b o outs xs1 xs2 d1 d2 l1 l2 : o <> Abort ->
      dsspec b xs op i1 o xs1 d1 l1 -> dstrace xs1 ops i2 outs xs2 d2 l2 ->
      dstrace xs (op :: ops) (i1 ++ i2) ((b, o) :: outs) xs2 (d1 ++ d2) (l1 ++ l2).
End spec.
