(** Property C108: downcasting Rc. *)
From Verif Require Import CastFacts.

(** Full statement: [downcast] turns a handle into a handle of the other type, or gives it back, and
    changes nothing else; in particular the counts stay the numbers of handles.  Proved for a value
    of another type and for the only handle; otherwise false ([C108_downcast_refuted]). *)
Theorem C108_downcast_partial : forall (EN : Env) (T : Type) (EL : Elem T) w0 ops st tab d
    (w : world (rcbox T)) i c is,
  rc_follows w0 ops st tab d w -> s_tab st !! i = Some (Some (SRc c)) ->
  exists p x, tab !! i = Some (Some (HRc p)) /\ s_cells st !! c = Some (Some x) /\
    (is x = false -> rc_downcast is p (d, w) = (Ret (inr p), (d, w))) /\
    (is x = true -> strong_of st c = 1 -> rc_downcast is p (d, w) = (Ret (inl p), (d, w))).
Proof. exact p_C108_downcast_partial. Qed.
Print Assumptions C108_downcast_partial.

Example C108_downcast_ex :
  @rc_follows env_debug N num_drop wr_start ops_rc st_rc (rtab env_debug ops_rc) (rdrops env_debug ops_rc)
    (rworld env_debug ops_rc) /\
  s_tab st_rc !! 0%nat = Some (Some (SRc 0)) /\ s_tab st_rc !! 3%nat = Some (Some (SRc 1)) /\
  strong_of st_rc 0 = 2 /\ strong_of st_rc 1 = 1.
Proof. exact x_C108_downcast_ex. Qed.

(** Any handle that is not the only one: [self] is dropped although the new handle takes its place, so the
    count is one less than the number of handles. *)
Theorem C108_downcast_refuted : forall (EN : Env) (T : Type) (EL : Elem T) w0 ops st tab d
    (w : world (rcbox T)) i c is x,
  rc_follows w0 ops st tab d w -> s_tab st !! i = Some (Some (SRc c)) -> s_cells st !! c = Some (Some x) ->
  is x = true -> 2 <= strong_of st c ->
  exists p w', tab !! i = Some (Some (HRc p)) /\ rc_downcast is p (d, w) = (Ret (inl p), (d, w')) /\
    rc_strong_count p (d, w') = (Ret (strong_of st c - 1), (d, w')).
Proof. exact p_C108_downcast_refuted. Qed.
Print Assumptions C108_downcast_refuted.

(** With two handles, [get_mut] of either then gives a mutable reference to what the other reads. *)
Theorem C108_shared_mut_refuted : exists tab d w p q w1 w2 o,
  @rc_reached env_debug N num_drop wr_start [RNew 5; RClone 0] tab d w /\
  tab = [Some (HRc p); Some (HRc q)] /\
  @rc_downcast env_debug N num_drop (fun _ => true) q (d, w) = (Ret (inl o), (d, w1)) /\
  @rc_get_mut N num_drop p 6 (d, w1) = (Ret (Some 5), (d, w2)) /\ fst (@rc_as_ref N num_drop o (d, w2)) = Ret 6.
Proof. exact p_C108_shared_mut_refuted. Qed.
Print Assumptions C108_shared_mut_refuted.
