(** Specification of growable vectors as plain lists.  Independent of the model: it mentions only
    lists, the calls a user can make and what they observe. *)
From Verif Require Import Base PtrModel.

(** The calls of a history.  [OAppend l] appends a vector just built from the array [l] and drops
    it afterwards; [OSetScope s] makes another allocation scope current. *)
Inductive vop (T : Type) :=
| OPush (x : T) | OPop | OInsert (i : N) (x : T) | ORemove (i : N) | OSwapRemove (i : N)
| OTruncate (n : N) | OClear | OAppend (l : list T)
| OExtendSlice (l : list T) | OExtendIter (it : list (option T)) (hint : N)
| OResize (n : N) (x : T) | OResizeWith (n : N) (g : nat -> option T)
| OReserve (n : N) | OReserveExact (n : N) | OTryReserve (n : N) | OTryReserveExact (n : N)
| OShrinkTo (m : N) | OShrinkToFit
| OIndex (i : N) | OAssign (i : N) (x : T) | OGet (i : N) | OAsSlice | OLen
| OSetScope (s : N).
Arguments OPush {T}. Arguments OPop {T}. Arguments OInsert {T}. Arguments ORemove {T}.
Arguments OSwapRemove {T}. Arguments OTruncate {T}. Arguments OClear {T}. Arguments OAppend {T}.
Arguments OExtendSlice {T}. Arguments OExtendIter {T}. Arguments OResize {T}.
Arguments OResizeWith {T}. Arguments OReserve {T}. Arguments OReserveExact {T}.
Arguments OTryReserve {T}. Arguments OTryReserveExact {T}. Arguments OShrinkTo {T}.
Arguments OShrinkToFit {T}. Arguments OIndex {T}. Arguments OAssign {T}. Arguments OGet {T}.
Arguments OAsSlice {T}. Arguments OLen {T}. Arguments OSetScope {T}.

(** What a call returns. *)
Inductive vret (T : Type) :=
| RUnit | RVal (x : T) | ROpt (o : option T) | RRef (x : T) | ROptRef (o : option T)
| RList (l : list T) | RNum (n : N) | RResult (r : result unit aerr).
Arguments RUnit {T}. Arguments RVal {T}. Arguments ROpt {T}. Arguments RRef {T}.
Arguments ROptRef {T}. Arguments RList {T}. Arguments RNum {T}. Arguments RResult {T}.

(** Values whose ownership the call hands to the caller. *)
Definition handed_out {T} (r : res (vret T)) : list T :=
  match r with
  | Ret (RVal x) | Ret (ROpt (Some x)) => [x]
  | _ => []
  end.

Section spec.
  Context {T : Type}.
  (** [may_refuse]: the allocator may refuse some request; [clone]: the element's clone. *)
  Context (may_refuse : Prop) (clone : T -> option T).
  Implicit Types (xs ys : list T).

  (** [vspec xs op ins out xs' ds]: with contents [xs], the call [op] may take ownership of the
      values [ins], end in [out], leave [xs'] and have destroyed [ds]. *)
  Inductive vspec : list T -> vop T -> list T -> res (vret T) -> list T -> list T -> Prop :=
  | s_push xs x : vspec xs (OPush x) [x] (Ret RUnit) (xs ++ [x]) []
  | s_push_refused xs x : may_refuse -> vspec xs (OPush x) [x] (Panic PUnwrap) xs [x]
  | s_pop xs x : vspec (xs ++ [x]) OPop [] (Ret (ROpt (Some x))) xs []
  | s_pop_empty : vspec [] OPop [] (Ret (ROpt None)) [] []
  | s_insert xs ys x i : i = llen xs ->
      vspec (xs ++ ys) (OInsert i x) [x] (Ret RUnit) (xs ++ x :: ys) []
  | s_insert_refused xs x i : may_refuse -> i <= llen xs ->
      vspec xs (OInsert i x) [x] (Panic PUnwrap) xs [x]
  | s_insert_bad xs x i : llen xs < i -> vspec xs (OInsert i x) [x] (Panic PAssert) xs [x]
  | s_remove xs x ys i : i = llen xs ->
      vspec (xs ++ x :: ys) (ORemove i) [] (Ret (RVal x)) (xs ++ ys) []
  | s_remove_bad xs i : llen xs <= i -> vspec xs (ORemove i) [] (Panic PAssert) xs []
  | s_swap_remove xs x ys l i : i = llen xs ->
      vspec (xs ++ x :: ys ++ [l]) (OSwapRemove i) [] (Ret (RVal x)) (xs ++ l :: ys) []
  | s_swap_remove_last xs x i : i = llen xs ->
      vspec (xs ++ [x]) (OSwapRemove i) [] (Ret (RVal x)) xs []
  | s_swap_remove_bad xs i : llen xs <= i -> vspec xs (OSwapRemove i) [] (Panic PAssert) xs []
  | s_truncate xs ys n : n = llen xs -> vspec (xs ++ ys) (OTruncate n) [] (Ret RUnit) xs ys
  | s_truncate_long xs n : llen xs <= n -> vspec xs (OTruncate n) [] (Ret RUnit) xs []
  | s_clear xs : vspec xs OClear [] (Ret RUnit) [] xs
  | s_append xs l : vspec xs (OAppend l) l (Ret RUnit) (xs ++ l) []
  | s_append_refused xs l : may_refuse -> vspec xs (OAppend l) l (Panic PUnwrap) xs l
  | s_extend_slice xs l ys : Forall2 (fun x y => clone x = Some y) l ys ->
      vspec xs (OExtendSlice l) ys (Ret RUnit) (xs ++ ys) []
  | s_extend_slice_panic xs l1 x l2 ys : Forall2 (fun x y => clone x = Some y) l1 ys ->
      clone x = None -> vspec xs (OExtendSlice (l1 ++ x :: l2)) ys (Panic PUser) (xs ++ ys) []
  | s_extend_slice_refused xs l : may_refuse ->
      vspec xs (OExtendSlice l) [] (Panic PUnwrap) xs []
  | s_extend_iter xs ys h :
      vspec xs (OExtendIter (Some <$> ys) h) ys (Ret RUnit) (xs ++ ys) []
  | s_extend_iter_panic xs ys it h :
      vspec xs (OExtendIter ((Some <$> ys) ++ None :: it) h) ys (Panic PUser) (xs ++ ys) []
  | s_extend_iter_refused xs it h : may_refuse ->
      vspec xs (OExtendIter it h) [] (Panic PUnwrap) xs []
  | s_extend_iter_refused_at xs ys y it h : may_refuse ->
      vspec xs (OExtendIter ((Some <$> ys) ++ Some y :: it) h) (ys ++ [y]) (Panic PUnwrap)
            (xs ++ ys) [y]
  | s_resize_shrink xs ys n x : n = llen xs ->
      vspec (xs ++ ys) (OResize n x) [x] (Ret RUnit) xs (ys ++ [x])
  | s_resize_grow xs n x ys : n = llen xs + llen ys + 1 ->
      (forall y, y ∈ ys -> clone x = Some y) ->
      vspec xs (OResize n x) (ys ++ [x]) (Ret RUnit) (xs ++ ys ++ [x]) []
  | s_resize_panic xs n x : llen xs + 1 < n -> clone x = None ->
      vspec xs (OResize n x) [x] (Panic PUser) xs [x]
  | s_resize_refused xs n x : may_refuse -> llen xs < n ->
      vspec xs (OResize n x) [x] (Panic PUnwrap) xs [x]
  | s_resize_with_shrink xs ys n g : n = llen xs ->
      vspec (xs ++ ys) (OResizeWith n g) [] (Ret RUnit) xs ys
  | s_resize_with_grow xs n g ys : n = llen xs + llen ys ->
      (forall k, (k < length ys)%nat -> g k = ys !! k) ->
      vspec xs (OResizeWith n g) ys (Ret RUnit) (xs ++ ys) []
  | s_resize_with_panic xs n g ys : llen xs + llen ys < n ->
      (forall k, (k < length ys)%nat -> g k = ys !! k) -> g (length ys) = None ->
      vspec xs (OResizeWith n g) ys (Panic PUser) (xs ++ ys) []
  | s_resize_with_refused xs n g : may_refuse -> llen xs < n ->
      vspec xs (OResizeWith n g) [] (Panic PUnwrap) xs []
  | s_reserve xs n : vspec xs (OReserve n) [] (Ret RUnit) xs []
  | s_reserve_refused xs n : may_refuse -> vspec xs (OReserve n) [] (Panic PUnwrap) xs []
  | s_reserve_exact xs n : vspec xs (OReserveExact n) [] (Ret RUnit) xs []
  | s_reserve_exact_refused xs n : may_refuse ->
      vspec xs (OReserveExact n) [] (Panic PUnwrap) xs []
  | s_try_reserve xs n : vspec xs (OTryReserve n) [] (Ret (RResult (Ok tt))) xs []
  | s_try_reserve_refused xs n : may_refuse ->
      vspec xs (OTryReserve n) [] (Ret (RResult (Err AllocErr))) xs []
  | s_try_reserve_exact xs n : vspec xs (OTryReserveExact n) [] (Ret (RResult (Ok tt))) xs []
  | s_try_reserve_exact_refused xs n : may_refuse ->
      vspec xs (OTryReserveExact n) [] (Ret (RResult (Err AllocErr))) xs []
  | s_shrink_to xs m : vspec xs (OShrinkTo m) [] (Ret RUnit) xs []
  | s_shrink_to_refused xs m : may_refuse -> vspec xs (OShrinkTo m) [] (Panic PUnwrap) xs []
  | s_shrink_to_fit xs : vspec xs OShrinkToFit [] (Ret RUnit) xs []
  | s_shrink_to_fit_refused xs : may_refuse -> vspec xs OShrinkToFit [] (Panic PUnwrap) xs []
  | s_index xs i x : xs !! N.to_nat i = Some x -> vspec xs (OIndex i) [] (Ret (RRef x)) xs []
  | s_index_bad xs i : llen xs <= i -> vspec xs (OIndex i) [] (Panic PIndex) xs []
  | s_assign xs y ys i x : i = llen xs ->
      vspec (xs ++ y :: ys) (OAssign i x) [x] (Ret RUnit) (xs ++ x :: ys) [y]
  | s_assign_bad xs i x : llen xs <= i -> vspec xs (OAssign i x) [x] (Panic PIndex) xs [x]
  | s_get xs i : vspec xs (OGet i) [] (Ret (ROptRef (xs !! N.to_nat i))) xs []
  | s_as_slice xs : vspec xs OAsSlice [] (Ret (RList xs)) xs []
  | s_len xs : vspec xs OLen [] (Ret (RNum (llen xs))) xs []
  | s_set_scope xs s : vspec xs (OSetScope s) [] (Ret RUnit) xs [].

  (** A whole history: the panics of single calls are caught and the history goes on. *)
  Inductive vtrace : list T -> list (vop T) -> list T -> list (res (vret T)) -> list T -> list T ->
    Prop :=
  | vt_nil xs : vtrace xs [] [] [] xs []
  | vt_cons xs op ops i1 i2 o outs xs1 xs2 d1 d2 :
      vspec xs op i1 o xs1 d1 -> vtrace xs1 ops i2 outs xs2 d2 ->
      vtrace xs (op :: ops) (i1 ++ i2) (o :: outs) xs2 (d1 ++ d2).
End spec.

(** Upper bound for the number of elements a call asks room for. *)
Definition demand {T} (op : vop T) : N :=
  match op with
  | OPush _ | OInsert _ _ => 1
  | OAppend l | OExtendSlice l => llen l
  | OExtendIter it h => N.max (llen it) h
  | OResize n _ | OResizeWith n _ => n
  | OReserve n | OReserveExact n | OTryReserve n | OTryReserveExact n => n
  | _ => 0
  end.
Definition total_demand {T} (ops : list (vop T)) : N := foldr (fun op n => demand op + n) 0 ops.

(** The two calls that are not sound: [swap_remove] of the last of several elements (it copies an
    element onto itself with [copy_nonoverlapping]) and shrinking to capacity zero. *)
Definition sound_call {T} (strict : bool) (xs : list T) (op : vop T) : Prop :=
  match op with
  | OSwapRemove i => strict = false \/ i + 1 <> llen xs \/ llen xs = 1
  | OShrinkTo m => 0 < llen xs \/ 0 < m
  | OShrinkToFit => 0 < llen xs
  | _ => True
  end.

(** Every element that came in is accounted for exactly once. *)
Section ledger.
  Context {T : Type} (R : Prop) (clone : T -> option T).

  Lemma vspec_ledger xs op ins o xs' ds :
    vspec R clone xs op ins o xs' ds -> xs ++ ins ≡ₚ handed_out o ++ ds ++ xs'.
  Proof. destruct 1; simpl; rewrite ?app_nil_r; try done; solve_Permutation. Qed.

  Lemma vtrace_ledger xs ops ins outs xs' ds :
    vtrace R clone xs ops ins outs xs' ds ->
    xs ++ ins ≡ₚ concat (handed_out <$> outs) ++ ds ++ xs'.
  Proof.
    induction 1 as [|xs op ops i1 i2 o outs xs1 xs2 d1 d2 Hs Ht IH]; simpl; [by rewrite app_nil_r|].
    apply vspec_ledger in Hs. rewrite app_assoc, Hs, <-!app_assoc. f_equiv.
    rewrite IH. solve_Permutation.
  Qed.
End ledger.
