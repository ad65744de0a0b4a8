(** Specification of [SmallVec] as a plain list.  Independent of the model: it mentions only lists,
    the calls a user can make and what they observe. *)
From Verif Require Import Base PtrModel SpecVec.

(** The calls of a history.  [SAppend l] appends a vector just collected from an iterator over [l]
    and drops it afterwards; [SSetScope s] makes another allocation scope current. *)
Inductive sop (T : Type) :=
| SPush (x : T) | SPop | SInsert (i : N) (x : T) | SRemove (i : N) | SSwapRemove (i : N)
| STruncate (n : N) | SClear | SAppend (l : list T)
| SExtendSlice (l : list T) | SExtendIter (it : list (option T)) (hint : N)
| SReserve (n : N) | SReserveExact (n : N) | STryReserve (n : N) | STryReserveExact (n : N)
| SShrinkTo (m : N) | SShrinkToFit | SMoveToHeap | STryMoveToStack
| SIndex (i : N) | SAssign (i : N) (x : T) | SGet (i : N) | SAsSlice | SLen
| SSetScope (s : N).
Arguments SPush {T}. Arguments SPop {T}. Arguments SInsert {T}. Arguments SRemove {T}.
Arguments SSwapRemove {T}. Arguments STruncate {T}. Arguments SClear {T}. Arguments SAppend {T}.
Arguments SExtendSlice {T}. Arguments SExtendIter {T}. Arguments SReserve {T}.
Arguments SReserveExact {T}. Arguments STryReserve {T}. Arguments STryReserveExact {T}.
Arguments SShrinkTo {T}. Arguments SShrinkToFit {T}. Arguments SMoveToHeap {T}.
Arguments STryMoveToStack {T}. Arguments SIndex {T}. Arguments SAssign {T}. Arguments SGet {T}.
Arguments SAsSlice {T}. Arguments SLen {T}. Arguments SSetScope {T}.

Section spec.
  Context {T : Type}.
  (** [may_refuse]: the allocator may refuse some request; [clone]: the element's clone. *)
  Context (may_refuse : Prop) (clone : T -> option T).
  Implicit Types (xs ys : list T).

  (** [sspec b xs op ins out xs' ds ls]: with contents [xs], held inline if [b], the call [op] may
      take ownership of the values [ins], end in [out], leave [xs'], have destroyed [ds] and have
      lost [ls] (values that are neither reachable nor destroyed).  Whether the contents are inline
      matters for [truncate] alone.  [STryMoveToStack] answers 1 for [Ok], 0 for [Err]. *)
  Inductive sspec (b : bool) :
    list T -> sop T -> list T -> res (vret T) -> list T -> list T -> list T -> Prop :=
  | ss_push xs x : sspec b xs (SPush x) [x] (Ret RUnit) (xs ++ [x]) [] []
  | ss_push_refused xs x : may_refuse -> sspec b xs (SPush x) [x] (Panic PUnwrap) xs [x] []
  | ss_pop xs x : sspec b (xs ++ [x]) SPop [] (Ret (ROpt (Some x))) xs [] []
  | ss_pop_empty : sspec b [] SPop [] (Ret (ROpt None)) [] [] []
  | ss_insert xs ys x i : i = llen xs ->
      sspec b (xs ++ ys) (SInsert i x) [x] (Ret RUnit) (xs ++ x :: ys) [] []
  | ss_insert_refused xs x i : may_refuse ->
      sspec b xs (SInsert i x) [x] (Panic PUnwrap) xs [x] []
  | ss_insert_bad xs x i p : llen xs < i -> p = PAssert \/ p = PDebugAssert ->
      sspec b xs (SInsert i x) [x] (Panic p) xs [x] []
  | ss_remove xs x ys i : i = llen xs ->
      sspec b (xs ++ x :: ys) (SRemove i) [] (Ret (RVal x)) (xs ++ ys) [] []
  | ss_remove_bad xs i : llen xs <= i -> sspec b xs (SRemove i) [] (Panic PAssert) xs [] []
  | ss_swap_remove xs x ys l i : i = llen xs ->
      sspec b (xs ++ x :: ys ++ [l]) (SSwapRemove i) [] (Ret (RVal x)) (xs ++ l :: ys) [] []
  | ss_swap_remove_last xs x i : i = llen xs ->
      sspec b (xs ++ [x]) (SSwapRemove i) [] (Ret (RVal x)) xs [] []
  | ss_swap_remove_bad xs i : llen xs <= i -> sspec b xs (SSwapRemove i) [] (Panic PAssert) xs [] []
  | ss_truncate xs ys n : n = llen xs ->
      sspec b (xs ++ ys) (STruncate n) [] (Ret RUnit) xs
        (if b then [] else ys) (if b then ys else [])
  | ss_truncate_long xs n : llen xs <= n -> sspec b xs (STruncate n) [] (Ret RUnit) xs [] []
  | ss_clear xs : sspec b xs SClear [] (Ret RUnit) [] xs []
  | ss_append xs l : sspec b xs (SAppend l) l (Ret RUnit) (xs ++ l) [] []
  | ss_append_refused xs l1 l2 ds : may_refuse -> l1 ≡ₚ ds ->
      sspec b xs (SAppend (l1 ++ l2)) l1 (Panic PUnwrap) xs ds []
  | ss_extend_slice xs l ys : Forall2 (fun x y => clone x = Some y) l ys ->
      sspec b xs (SExtendSlice l) ys (Ret RUnit) (xs ++ ys) [] []
  | ss_extend_slice_panic xs l1 x l2 ys : Forall2 (fun x y => clone x = Some y) l1 ys ->
      clone x = None -> sspec b xs (SExtendSlice (l1 ++ x :: l2)) ys (Panic PUser) (xs ++ ys) [] []
  | ss_extend_slice_refused xs l : may_refuse ->
      sspec b xs (SExtendSlice l) [] (Panic PUnwrap) xs [] []
  | ss_extend_slice_refused_at xs l1 x l2 ys y : may_refuse ->
      Forall2 (fun x y => clone x = Some y) l1 ys -> clone x = Some y ->
      sspec b xs (SExtendSlice (l1 ++ x :: l2)) (ys ++ [y]) (Panic PUnwrap) (xs ++ ys) [y] []
  | ss_extend_iter xs ys h :
      sspec b xs (SExtendIter (Some <$> ys) h) ys (Ret RUnit) (xs ++ ys) [] []
  | ss_extend_iter_panic xs ys it h :
      sspec b xs (SExtendIter ((Some <$> ys) ++ None :: it) h) ys (Panic PUser) (xs ++ ys) [] []
  | ss_extend_iter_refused xs it h : may_refuse ->
      sspec b xs (SExtendIter it h) [] (Panic PUnwrap) xs [] []
  | ss_extend_iter_refused_at xs ys y it h : may_refuse ->
      sspec b xs (SExtendIter ((Some <$> ys) ++ Some y :: it) h) (ys ++ [y]) (Panic PUnwrap)
            (xs ++ ys) [y] []
  | ss_reserve xs n : sspec b xs (SReserve n) [] (Ret RUnit) xs [] []
  | ss_reserve_refused xs n : may_refuse -> sspec b xs (SReserve n) [] (Panic PUnwrap) xs [] []
  | ss_reserve_exact xs n : sspec b xs (SReserveExact n) [] (Ret RUnit) xs [] []
  | ss_reserve_exact_refused xs n : may_refuse ->
      sspec b xs (SReserveExact n) [] (Panic PUnwrap) xs [] []
  | ss_try_reserve xs n : sspec b xs (STryReserve n) [] (Ret (RResult (Ok tt))) xs [] []
  | ss_try_reserve_refused xs n : may_refuse ->
      sspec b xs (STryReserve n) [] (Ret (RResult (Err AllocErr))) xs [] []
  | ss_try_reserve_exact xs n :
      sspec b xs (STryReserveExact n) [] (Ret (RResult (Ok tt))) xs [] []
  | ss_try_reserve_exact_refused xs n : may_refuse ->
      sspec b xs (STryReserveExact n) [] (Ret (RResult (Err AllocErr))) xs [] []
  | ss_shrink_to xs m : sspec b xs (SShrinkTo m) [] (Ret RUnit) xs [] []
  | ss_shrink_to_refused xs m : may_refuse ->
      sspec b xs (SShrinkTo m) [] (Panic PUnwrap) xs [] []
  | ss_shrink_to_fit xs : sspec b xs SShrinkToFit [] (Ret RUnit) xs [] []
  | ss_shrink_to_fit_refused xs : may_refuse ->
      sspec b xs SShrinkToFit [] (Panic PUnwrap) xs [] []
  | ss_move_to_heap xs : sspec b xs SMoveToHeap [] (Ret RUnit) xs [] []
  | ss_move_to_heap_refused xs : may_refuse -> sspec b xs SMoveToHeap [] (Panic PUnwrap) xs [] []
  | ss_to_stack xs r : r = 0 \/ r = 1 -> sspec b xs STryMoveToStack [] (Ret (RNum r)) xs [] []
  | ss_index xs i x : xs !! N.to_nat i = Some x -> sspec b xs (SIndex i) [] (Ret (RRef x)) xs [] []
  | ss_index_bad xs i : llen xs <= i -> sspec b xs (SIndex i) [] (Panic PUnwrap) xs [] []
  | ss_assign xs y ys i x : i = llen xs ->
      sspec b (xs ++ y :: ys) (SAssign i x) [x] (Ret RUnit) (xs ++ x :: ys) [y] []
  | ss_assign_bad xs i x : llen xs <= i -> sspec b xs (SAssign i x) [x] (Panic PUnwrap) xs [x] []
  | ss_get xs i : sspec b xs (SGet i) [] (Ret (ROptRef (xs !! N.to_nat i))) xs [] []
  | ss_as_slice xs : sspec b xs SAsSlice [] (Ret (RList xs)) xs [] []
  | ss_len xs : sspec b xs SLen [] (Ret (RNum (llen xs))) xs [] []
  | ss_set_scope xs s : sspec b xs (SSetScope s) [] (Ret RUnit) xs [] [].

  (** A whole history: the panics of single calls are caught and the history goes on.  Each call is
      observed with whether the contents were inline before it. *)
  Inductive strace : list T -> list (sop T) -> list T -> list (bool * res (vret T)) ->
    list T -> list T -> list T -> Prop :=
  | st_nil xs : strace xs [] [] [] xs [] []
  | st_cons xs op ops i1 i2 b o outs xs1 xs2 d1 d2 l1 l2 :
      sspec b xs op i1 o xs1 d1 l1 -> strace xs1 ops i2 outs xs2 d2 l2 ->
      strace xs (op :: ops) (i1 ++ i2) ((b, o) :: outs) xs2 (d1 ++ d2) (l1 ++ l2).
End spec.

(** Upper bound for the number of elements a call asks room for. *)
Definition sdemand {T} (op : sop T) : N :=
  match op with
  | SPush _ | SInsert _ _ => 1
  | SAppend l | SExtendSlice l => llen l
  | SExtendIter it h => N.max (llen it) h
  | SReserve n | SReserveExact n | STryReserve n | STryReserveExact n => n
  | _ => 0
  end.
Definition total_sdemand {T} (ops : list (sop T)) : N := foldr (fun op n => sdemand op + n) 0 ops.

(** The calls that are not sound: for inline capacity [cap], the growth step [minc] of the element
    type ([MIN_NON_ZERO_CAP]), the build profile, and contents [xs] held inline if [b].
    - [insert] into an inline vector that stays inline: at the end (the library precondition of
      [get_unchecked_mut]) and, with debug assertions off, past the end;
    - [remove] from a full inline vector (it moves one element too many);
    - [swap_remove] of the last element (an overlapping [copy_nonoverlapping]);
    - shrinking away all memory of an empty heap vector;
    - [try_move_to_stack] of a heap vector that would fit (the old block is used after release). *)
Definition unsound_small {T} (strict checks : bool) (cap minc : N) (b : bool) (xs : list T)
  (op : sop T) (u : ub) : Prop :=
  match op with
  | SInsert i _ => b = true /\ llen xs + N.max (minc - cap) 1 <= cap /\
      ((strict = true /\ u = Precond /\ (i = llen xs \/ (llen xs < i /\ checks = false))) \/
       (strict = false /\ u = OutOfBounds /\ llen xs < i /\ checks = false))
  | SRemove i => b = true /\ llen xs = cap /\ i < llen xs /\ u = OutOfBounds
  | SSwapRemove i => strict = true /\ i + 1 = llen xs /\ (b = true \/ 2 <= llen xs) /\ u = Overlap
  | SShrinkTo m => b = false /\ xs = [] /\ m = 0 /\ u = ZeroSizeAlloc
  | SShrinkToFit => b = false /\ xs = [] /\ u = ZeroSizeAlloc
  | STryMoveToStack => b = false /\ llen xs <= cap /\ (u = UseAfterFree \/ u = Dangling_access)
  | _ => False
  end.

(** Every element that came in is accounted for exactly once, and only [truncate] of an inline
    vector loses any. *)
Section ledger.
  Context {T : Type} (R : Prop) (clone : T -> option T).

  Lemma sspec_ledger b xs op ins o xs' ds ls :
    sspec R clone b xs op ins o xs' ds ls -> xs ++ ins ≡ₚ handed_out o ++ ds ++ ls ++ xs'.
  Proof.
    destruct 1; simpl; rewrite ?app_nil_r; try done; try solve_Permutation.
    - destruct b; simpl; solve_Permutation.
    - match goal with H : _ ≡ₚ ds |- _ => rewrite H end. solve_Permutation.
  Qed.
  Lemma strace_ledger xs ops ins outs xs' ds ls :
    strace R clone xs ops ins outs xs' ds ls ->
    xs ++ ins ≡ₚ concat (handed_out <$> outs.*2) ++ ds ++ ls ++ xs'.
  Proof.
    induction 1 as [|xs op ops i1 i2 b o outs xs1 xs2 d1 d2 l1 l2 Hs Ht IH]; simpl; [by rewrite app_nil_r|].
    apply sspec_ledger in Hs. rewrite app_assoc, Hs, <-!app_assoc. f_equiv.
    rewrite IH. solve_Permutation.
  Qed.
  Lemma sspec_leak b xs op ins o xs' ds ls :
    sspec R clone b xs op ins o xs' ds ls -> ls = [] \/ (b = true /\ exists n, op = STruncate n).
  Proof. destruct 1; try (by left). destruct b; [right; eauto|by left]. Qed.
  Lemma strace_leak xs ops ins outs xs' ds ls :
    strace R clone xs ops ins outs xs' ds ls ->
    (forall k n b o, ops !! k = Some (STruncate n) -> outs !! k = Some (b, o) -> b = false) -> ls = [].
  Proof.
    induction 1 as [|xs op ops i1 i2 b o outs xs1 xs2 d1 d2 l1 l2 Hs Ht IH]; [done|].
    intros Hb. rewrite IH.
    - apply sspec_leak in Hs as [->|[-> [n ->]]]; [done|].
      specialize (Hb 0%nat n true o eq_refl eq_refl). done.
    - intros k n b' o' H1 H2. by apply (Hb (S k) n b' o').
  Qed.
End ledger.
