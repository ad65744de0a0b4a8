(** Properties C80-C83: Arc without make_mut. *)
From Verif Require Import CalmArcFacts.

(** Any interleaving of any number of threads that clone, read, downgrade, drop, unwrap, forget and get
    mutable access: no access to memory that is freed or to a value that is gone, at most one
    destruction and at most one release, and every read and [try_unwrap] sees the value written last. *)
Theorem C80_safe : forall (PR : Profile) (T : Type) (x : T) ls c,
  plain_arc ls -> arun ls (arc_init x) = Some c ->
  happened is_bad c = 0 /\ happened is_overflow c = 0 /\
  happened is_destroy c + happened is_out c <= 1 /\ happened is_free c <= 1 /\
  (forall i k c' y, astep (LSh i k true) c = Some c' -> a_log c' = a_log c ++ [ARead y] -> y = latest x ls) /\
  (forall i h k, a_hs c !! i = Some h -> h_sh h !! k = Some SRead ->
     exists c', astep (LSh i k true) c = Some c' /\ a_log c' = a_log c ++ [ARead (latest x ls)]) /\
  (forall i f c' y, astep (LEx i f) c = Some c' -> a_log c' = a_log c ++ [ATake y] -> y = latest x ls).
Proof. exact p_C80_safe. Qed.
Print Assumptions C80_safe.

Example C80_safe_ex : forall (PR : Profile), exists c,
  plain_arc s_two /\ arun s_two (arc_init 5) = Some c /\
  a_log c = [ACloneOk; ARead 5; ARead 5; ADestroy; AFree].
Proof. exact x_C80_safe_ex. Qed.

(** If no [Weak] is made, nothing is forgotten and no destructor panics, then once all handles are gone
    the value was destroyed or handed out exactly once and the memory was released exactly once. *)
Theorem C81_released : forall (PR : Profile) (T : Type) (x : T) ls c,
  plain_arc ls -> no_forget ls -> no_downgrade ls -> no_panic ls ->
  arun ls (arc_init x) = Some c -> all_gone c ->
  happened is_destroy c + happened is_take c = 1 /\ happened is_free c = 1 /\ a_freed c = true.
Proof. exact p_C81_released. Qed.
Print Assumptions C81_released.

Example C81_released_ex : forall (PR : Profile), exists c,
  plain_arc s_two /\ no_forget s_two /\ no_downgrade s_two /\ no_panic s_two /\
  arun s_two (arc_init 5) = Some c /\ all_gone c.
Proof. exact x_C81_released_ex. Qed.

(** Counts: if nothing is forgotten, [strong_count] is the number of handles, counting those whose
    drop or unwrapping has not taken effect and clones that are counted but not returned yet; when no
    call is in progress it is the number of handles.  [weak_count] is zero if no [Weak] was made. *)
Theorem C82_counts : forall (PR : Profile) (T : Type) (x : T) ls c i c',
  plain_arc ls -> no_forget ls -> arun ls (arc_init x) = Some c -> astep (LCounts i) c = Some c' ->
  exists n k, a_log c' = a_log c ++ [AStrong n; AWeakCount k] /\ n = owners (a_hs c) /\
    (quiet_arc (a_hs c) -> n = cnt is_held (a_hs c)) /\ (no_downgrade ls -> k = 0).
Proof. exact p_C82_counts. Qed.
Print Assumptions C82_counts.

Example C82_counts_ex : forall (PR : Profile), exists c c',
  plain_arc (s_clone 0 ++ s_clone 1) /\ no_forget (s_clone 0 ++ s_clone 1) /\
  arun (s_clone 0 ++ s_clone 1) (arc_init 5) = Some c /\ quiet_arc (a_hs c) /\
  astep (LCounts 1) c = Some c' /\ a_log c' = a_log c ++ [AStrong 3; AWeakCount 0].
Proof. exact x_C82_counts_ex. Qed.

(** [try_unwrap]: the only handle gets the value written last; any other call gives the handle back and
    changes nothing.  [get_mut] returns a reference exactly for the only handle when no [Weak] was
    ever made. *)
Theorem C83_unwrap : forall (PR : Profile) (T : Type) (x : T) ls c i h f f',
  plain_arc ls -> no_forget ls -> arun ls (arc_init x) = Some c -> a_hs c !! i = Some h -> h_ex h = XCas ->
  (alone i c /\ exists c', arun [LEx i f; LEx i f'] c = Some c' /\ a_log c' = a_log c ++ [ATake (latest x ls)]) \/
  (~ alone i c /\ astep (LEx i f) c = Some (say AUnwrapErr (goto i XHeld c))).
Proof. exact p_C83_unwrap. Qed.
Print Assumptions C83_unwrap.

Example C83_unwrap_ex : forall (PR : Profile), exists c,
  plain_arc (s_clone 0 ++ [LBeginX 0 CDrop; LEx 0 false; LBeginX 1 CUnwrap]) /\
  no_forget (s_clone 0 ++ [LBeginX 0 CDrop; LEx 0 false; LBeginX 1 CUnwrap]) /\
  arun (s_clone 0 ++ [LBeginX 0 CDrop; LEx 0 false; LBeginX 1 CUnwrap]) (arc_init 5) = Some c /\
  a_hs c !! 1%nat = Some (AHandle XCas []) /\ alone 1 c.
Proof. exact x_C83_unwrap_ex. Qed.

Theorem C83_get_mut : forall (PR : Profile) (T : Type) (x : T) ls c i (f1 f2 f3 : bool),
  plain_arc ls -> no_forget ls -> arun ls (arc_init x) = Some c -> quiet_arc (a_hs c) ->
  a_hs c !! i = Some held ->
  exists c', arun (LBeginX i CGetMut :: (if a_weak c =? 0 then [LEx i f1; LEx i f2; LEx i f3] else [LEx i f1])) c
      = Some c' /\
    a_log c' = a_log c ++ [AGetMut ((cnt is_held (a_hs c) =? 1) && (happened is_weak_made c =? 0))] /\
    a_hs c' !! i = Some (AHandle (if (cnt is_held (a_hs c) =? 1) && (happened is_weak_made c =? 0)
                                  then XMut else XHeld) []) /\
    (forall j, j <> i -> a_hs c' !! j = a_hs c !! j) /\ a_val c' = latest x ls.
Proof. exact p_C83_get_mut. Qed.
Print Assumptions C83_get_mut.

Example C83_get_mut_ex : forall (PR : Profile), exists c,
  plain_arc (s_clone 0 ++ [LBeginX 0 CDrop; LEx 0 false]) /\ no_forget (s_clone 0 ++ [LBeginX 0 CDrop; LEx 0 false]) /\
  arun (s_clone 0 ++ [LBeginX 0 CDrop; LEx 0 false]) (arc_init 5) = Some c /\ quiet_arc (a_hs c) /\
  a_hs c !! 1%nat = Some held /\ cnt is_held (a_hs c) = 1.
Proof. exact x_C83_get_mut_ex. Qed.
