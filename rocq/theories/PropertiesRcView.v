(** Properties C98-C99: looking at values through Rc and Weak. *)
From Verif Require Import RcViewFacts.

(** Comparing, hashing and formatting through [Rc] is comparing, hashing and formatting the values
    that dereferencing gives, after any history, and changes nothing. *)
Theorem C98_compare : forall (EN : Env) (T : Type) (EL : Elem T) w0 ops tab d (w : world (rcbox T))
    i j p q x y (C : Type) (f : T -> T -> C),
  rc_reached w0 ops tab d w -> tab !! i = Some (Some (HRc p)) -> tab !! j = Some (Some (HRc q)) ->
  reads i (tab, (d, w)) = Ret (RGot x) -> reads j (tab, (d, w)) = Ret (RGot y) ->
  rc_cmp f p q (d, w) = (Ret (f x y), (d, w)).
Proof. exact p_C98_compare. Qed.
Print Assumptions C98_compare.

Example C98_compare_ex :
  @rc_reached env_debug N num_drop wr_start ops_rc (rtab env_debug ops_rc) (rdrops env_debug ops_rc)
    (rworld env_debug ops_rc) /\
  @reads env_debug N num_drop 0 (snd (rdemo env_debug ops_rc)) = Ret (RGot 5) /\
  @reads env_debug N num_drop 3 (snd (rdemo env_debug ops_rc)) = Ret (RGot 8) /\
  match rtab env_debug ops_rc !! 0%nat, rtab env_debug ops_rc !! 3%nat with
  | Some (Some (HRc p)), Some (Some (HRc q)) =>
      fst (@rc_cmp N num_drop _ N.compare p q (snd (snd (rdemo env_debug ops_rc)))) = Ret Lt
  | _, _ => False
  end.
Proof. exact x_C98_compare_ex. Qed.

Theorem C98_hash_fmt : forall (EN : Env) (T : Type) (EL : Elem T) w0 ops tab d (w : world (rcbox T))
    i p x (H : Type) (hash : H -> T -> H) h fmt,
  rc_reached w0 ops tab d w -> tab !! i = Some (Some (HRc p)) ->
  reads i (tab, (d, w)) = Ret (RGot x) ->
  rc_hash hash h p (d, w) = (Ret (hash h x), (d, w)) /\ rc_fmt fmt p (d, w) = (Ret (fmt x), (d, w)).
Proof. exact p_C98_hash_fmt. Qed.
Print Assumptions C98_hash_fmt.

Example C98_hash_fmt_ex :
  @rc_reached env_debug N num_drop wr_start ops_rc (rtab env_debug ops_rc) (rdrops env_debug ops_rc)
    (rworld env_debug ops_rc) /\
  @reads env_debug N num_drop 5 (snd (rdemo env_debug ops_rc)) = Ret (RGot 5).
Proof. exact x_C98_hash_fmt_ex. Qed.

(** Full statement: [Debug] of a [Weak] writes "(Weak(v))" with the shared value [v] while an [Rc] is
    alive, "(Weak deallocated)" afterwards, and "(Weak null)" for one made by [Weak::new]; it never
    looks at a value that is gone.  Proved for histories that orphan no value; false afterwards
    ([C99_weak_debug_refuted]). *)
Theorem C99_weak_debug_partial : forall (EN : Env) (T : Type) (EL : Elem T) w0 ops st tab d
    (w : world (rcbox T)) i o fmt,
  rc_follows w0 ops st tab d w -> s_tab st !! i = Some (Some (SWeak o)) ->
  exists o', tab !! i = Some (Some (HWeak o')) /\
    match o with
    | None => weak_fmt fmt o' (d, w) = (Ret (chars_of "(Weak null)"), (d, w))
    | Some c => exists x, s_cells st !! c = Some (Some x) /\ 1 <= strong_of st c /\
        weak_fmt fmt o' (d, w) = (Ret (chars_of "(Weak(" ++ fmt x ++ chars_of "))"), (d, w))
    end.
Proof. exact p_C99_weak_debug_partial. Qed.
Print Assumptions C99_weak_debug_partial.

Example C99_weak_debug_ex :
  @rc_follows env_debug N num_drop wr_start ops_rc st_rc (rtab env_debug ops_rc) (rdrops env_debug ops_rc)
    (rworld env_debug ops_rc) /\ s_tab st_rc !! 2%nat = Some (Some (SWeak (Some 0%nat))) /\
  s_tab st_rc !! 6%nat = Some (Some (SWeak None)).
Proof. exact x_C99_weak_debug_ex. Qed.

(** After the last [Rc] was dropped the value is still written; after it was moved out of the box by
    [try_unwrap] the moved-out value is read. *)
Theorem C99_weak_debug_refuted :
  (exists tab d w p, @rc_reached env_debug N num_drop wr_start [RNew 5; RDowngrade 0; RDrop 0] tab d w /\
     tab = [None; Some (HWeak (Some p))] /\
     fst (@weak_fmt N num_drop (fun x => [48 + x]) (Some p) (d, w)) = Ret (chars_of "(Weak(5))")) /\
  (exists tab d w p, @rc_reached env_debug N num_drop wr_start [RNew 5; RDowngrade 0; RTryUnwrap 0] tab d w /\
     tab = [None; Some (HWeak (Some p))] /\
     fst (@weak_fmt N num_drop (fun x => [48 + x]) (Some p) (d, w)) = UB UseAfterMove).
Proof. exact p_C99_weak_debug_refuted. Qed.
Print Assumptions C99_weak_debug_refuted.

(** After any history at all: a [Weak] of a box whose strong count is zero is shown as deallocated,
    without looking at the value. *)
Theorem C99_dead_partial : forall (EN : Env) (T : Type) (EL : Elem T) tab d
    (w : world (rcbox T)) i p k fmt,
  tab !! i = Some (Some (HWeak (Some p))) ->
  fst (rexec (RWCounts i) (tab, (d, w))) = Ret (RNums 0 k) ->
  weak_fmt fmt (Some p) (d, w) = (Ret (chars_of "(Weak deallocated)"), (d, w)).
Proof. exact p_C99_dead_partial. Qed.
Print Assumptions C99_dead_partial.

Example C99_dead_ex :
  exists tab d w p, @rc_reached env_debug N num_drop wr_start [RNew 5; RDowngrade 0; RMakeMut 0 6] tab d w /\
    tab !! 1%nat = Some (Some (HWeak (Some p))) /\
    fst (@rexec env_debug N num_drop (RWCounts 1) (tab, (d, w))) = Ret (RNums 0 1).
Proof. exact x_C99_dead_ex. Qed.
