(** Running a history of calls on the [SmallVec] model, and its refinement of the list
    specification. *)
From Verif Require Export SmallProofs3 SpecSmall VecReach.
From Coq Require Import ZifyBool ZifyNat ZifyN.

Section small_run.
  Context {EN : Env} {T : Type} {EL : Elem T} (Cap : N).
  Notation W := (world T).
  Notation MS := (M (svec T * W)).

  (** One call.  [SAppend l] is
      [let mut o = l.into_iter().collect(); v.append(&mut o); drop(o)]. *)
  Definition sexec (op : sop T) : MS (vret T) :=
    match op with
    | SPush x => sv_push Cap x ;; ret RUnit
    | SPop => o <- sv_pop Cap; ret (ROpt o)
    | SInsert i x => sv_insert Cap i x ;; ret RUnit
    | SRemove i => x <- sv_remove Cap i; ret (RVal x)
    | SSwapRemove i => x <- sv_swap_remove Cap i; ret (RVal x)
    | STruncate n => sv_truncate Cap n ;; ret RUnit
    | SClear => sv_clear Cap ;; ret RUnit
    | SAppend l =>
        o <- on_snd (sv_from_iter Cap (Some <$> l) (llen l));
        o' <- on_unwind (sv_append Cap o) (on_snd (sv_drop_val o));
        on_snd (sv_drop_val o') ;; ret RUnit
    | SExtendSlice l => sv_extend_from_slice Cap l ;; ret RUnit
    | SExtendIter it h => sv_extend Cap it h ;; ret RUnit
    | SReserve n => sv_reserve Cap n ;; ret RUnit
    | SReserveExact n => sv_reserve_exact Cap n ;; ret RUnit
    | STryReserve n => r <- sv_try_reserve Cap n; ret (RResult r)
    | STryReserveExact n => r <- sv_try_reserve_exact Cap n; ret (RResult r)
    | SShrinkTo m => sv_shrink_to m ;; ret RUnit
    | SShrinkToFit => sv_shrink_to_fit ;; ret RUnit
    | SMoveToHeap => sv_move_to_heap ;; ret RUnit
    | STryMoveToStack => b <- sv_try_move_to_stack Cap; ret (RNum (if b : bool then 1 else 0))
    | SIndex i => x <- sv_index i; ret (RRef x)
    | SAssign i x => sv_assign i x ;; ret RUnit
    | SGet i => o <- sv_get i; ret (ROptRef o)
    | SAsSlice => l <- sv_as_slice; ret (RList l)
    | SLen => s <- get_fst; ret (RNum (sv_len s))
    | SSetScope s => (fun st => (Ret tt, (fst st, set_cur (Some s) (snd st)))) ;; ret RUnit
    end.

  (** A history: after a caught panic the next call is made; undefined behaviour and aborts end it.
      Before each call the history notes whether the contents are inline. *)
  Fixpoint srun (ops : list (sop T)) (st : svec T * W)
    : list (bool * res (vret T)) * (svec T * W) :=
    match ops with
    | [] => ([], st)
    | op :: ops =>
        let b := is_stack (fst st) in
        match sexec op st with
        | (Ret a, st') => let '(outs, st'') := srun ops st' in ((b, Ret a) :: outs, st'')
        | (Panic p, st') => let '(outs, st'') := srun ops st' in ((b, Panic p) :: outs, st'')
        | (r, st') => ([(b, r)], st')
        end
    end.

  Context (Hz : 0 < t_size) (HCap : fits Cap).
  Implicit Types (w : W) (s : svec T) (xs : list T).

  Definition safter w s w' s' (ds : list T) : Prop :=
    srest s' w' = srest s w /\ drops w' = drops w ++ ds.
  Lemma skeeps_after s w s' w' ds : skeeps s w s' w' ds -> safter w s w' s' ds.
  Proof. intros (?&?&_). done. Qed.
  Lemma safter_refl w s : safter w s w s [].
  Proof. split; [done|by rewrite app_nil_r]. Qed.

  Lemma read_sok w s xs i x :
    srep Cap w s xs -> xs !! N.to_nat i = Some x -> sv_read i (s, w) = (Ret x, (s, w)).
  Proof.
    intros [Hw Hr] Hx. destruct s as [[k|v] m]; simpl in Hr; unfold sv_read.
    - apply redirect_stack. apply (sk_read_eq Hz). by eapply skrep_lookup.
    - apply redirect_heap. rewrite bind_get_fst. apply on_snd_Ret. by eapply read_rep.
  Qed.
  Lemma index_sok w s xs i :
    srep Cap w s xs ->
    sv_index i (s, w) = (match xs !! N.to_nat i with Some x => Ret x | None => Panic PUnwrap end, (s, w)).
  Proof.
    intros Hr. pose proof (srep_len Hz Cap HCap _ _ _ Hr) as (Hl&_).
    unfold sv_index. rewrite bind_get_fst, Hl. destruct (xs !! N.to_nat i) as [x|] eqn:Hx.
    - rewrite (proj2 (N.ltb_lt _ _)) by (apply lookup_lt_Some in Hx; lia). by eapply read_sok.
    - rewrite (proj2 (N.ltb_ge _ _)) by (apply lookup_ge_None in Hx; lia). done.
  Qed.
  Lemma get_sok w s xs i :
    srep Cap w s xs -> sv_get i (s, w) = (Ret (xs !! N.to_nat i), (s, w)).
  Proof.
    intros Hr. pose proof (srep_len Hz Cap HCap _ _ _ Hr) as (Hl&_).
    unfold sv_get. rewrite bind_get_fst, Hl. destruct (xs !! N.to_nat i) as [x|] eqn:Hx.
    - rewrite (proj2 (N.ltb_lt _ _)) by (apply lookup_lt_Some in Hx; lia).
      by erewrite bind_Ret by (by eapply read_sok).
    - rewrite (proj2 (N.ltb_ge _ _)) by (apply lookup_ge_None in Hx; lia). done.
  Qed.
  Lemma as_slice_sok w s xs : srep Cap w s xs -> sv_as_slice (s, w) = (Ret xs, (s, w)).
  Proof.
    intros [Hw Hr]. destruct s as [[k|v] m]; simpl in Hr; unfold sv_as_slice.
    - apply redirect_stack. by eapply sk_as_slice_ok.
    - apply redirect_heap. rewrite bind_get_fst. apply on_snd_Ret. by apply as_slice_ok.
  Qed.
  Lemma write_sok w s xs i x y :
    srep Cap w s xs -> xs !! N.to_nat i = Some y ->
    exists s' w', sv_write i x (s, w) = (Ret tt, (s', w')) /\
      srep Cap w' s' (<[N.to_nat i := x]> xs) /\ skeeps s w s' w' [] /\ hcap s' = hcap s.
  Proof.
    intros [Hw Hr] Hx. destruct s as [[k|v] m]; simpl in Hr; unfold sv_write.
    - eexists _, w. split.
      { apply redirect_stack. apply (sk_write_eq Hz). destruct Hr as (_&_&rest&->).
        rewrite app_length, fmap_length. apply lookup_lt_Some in Hx. lia. }
      split; [split; [done|]; by eapply sk_assign_rep|]. split; [by apply skeeps_stack0|done].
    - destruct (rep_write Hz w v xs i x y Hr Hx) as (w'&He&Hr'&Hk).
      eexists _, w'. split.
      { apply redirect_heap. rewrite bind_get_fst. apply on_snd_Ret. exact He. }
      split; [by apply srep_heap|]. split; [by apply skeeps_heap|done].
  Qed.
  Lemma assign_sok w s xs i x :
    srep Cap w s xs ->
    exists r s' w', sv_assign i x (s, w) = (r, (s', w')) /\ hcap s' = hcap s /\
      ((exists y, xs !! N.to_nat i = Some y /\ r = drop_res y /\
          srep Cap w' s' (<[N.to_nat i := x]> xs) /\ skeeps s w s' w' [y])
       \/ (xs !! N.to_nat i = None /\ r = unwound PUnwrap x /\ srep Cap w' s' xs /\ s' = s /\
           skeeps s w s' w' [x])).
  Proof.
    intros Hr. pose proof (srep_len Hz Cap HCap _ _ _ Hr) as (Hl&_).
    unfold sv_assign. rewrite bind_get_fst, Hl. destruct (xs !! N.to_nat i) as [y|] eqn:Hx.
    - rewrite (proj2 (N.ltb_lt _ _)) by (apply lookup_lt_Some in Hx; lia).
      erewrite bind_Ret by (by eapply read_sok).
      destruct (write_sok w s xs i x y Hr Hx) as (s'&w'&He&Hr'&Hk&Hh).
      erewrite bind_Ret by exact He. eexists _, s', (add_drop y w').
      split; [apply on_snd_Ret; reflexivity|]. split; [done|]. left. exists y. split; [done|].
      split; [done|]. split; [by apply srep_drop|]. by apply (skeeps_drop _ _ _ _ []).
    - rewrite (proj2 (N.ltb_ge _ _)) by (apply lookup_ge_None in Hx; lia).
      eexists _, s, (add_drop x w). split; [by apply on_unwind_drop_s|]. split; [done|]. right.
      split; [done|]. split; [done|]. split; [by apply srep_drop|]. split; [done|].
      apply (skeeps_drop _ _ _ _ []). by apply skeeps_refl.
  Qed.

  Lemma drop_loop_gone b w : heap w !! b = None -> forall n i,
    drop_loop (Blk b) i n w = (Ret tt, w) \/ drop_loop (Blk b) i n w = (UB UseAfterFree, w).
  Proof.
    intros Hb. assert (get_slots (Blk b) w = (UB UseAfterFree, w)) as Hg.
    { unfold get_slots. by rewrite Hb. }
    induction n as [|n IH]; intros i; simpl; [by left|].
    assert (drop_at (Blk b) i w = (Ret tt, w) \/ drop_at (Blk b) i w = (UB UseAfterFree, w)) as [E|E].
    { unfold drop_at. rewrite sz_pos by done. destruct t_needs_drop.
      - right. by erewrite bind_UB by exact Hg.
      - left. by rewrite Hg. }
    - rewrite (bind_Ret _ _ _ _ _ E). apply IH.
    - right. by rewrite (bind_UB _ _ _ _ _ E).
  Qed.
  Lemma move_to_stack_ub w v m xs :
    rep w v xs -> llen xs <= Cap ->
    exists u st, sv_try_move_to_stack Cap (SVec (Heap v) m, w) = (UB u, st) /\
      (u = UseAfterFree \/ u = Dangling_access).
  Proof.
    intros Hr Hle. pose proof Hr as [Hl _]. unfold sv_try_move_to_stack. rewrite bind_get_fst. cbn [sv_store].
    rewrite Hl, (proj2 (N.leb_le _ _)) by done. rewrite sz_pos, orb_false_l by done.
    assert (exists l, (if llen xs =? 0 then ret [] else copy_out (vdata v) 0 (llen xs)) w = (Ret l, w)) as [l Hc].
    { destruct (N.eqb_spec (llen xs) 0); [by eexists|]. destruct Hr as [_ [rest Ho]].
      eexists. eapply copy_out_slots; [eapply (owns_slots _ _ _ Ho)|].
      - destruct xs; [simpl in *; lia|done].
      - rewrite app_length, fmap_length. lia. }
    erewrite bind_on_snd_Ret by exact Hc. erewrite bind_Ret by reflexivity.
    unfold vec_dealloc_without_drop.
    destruct (N.eq_dec (vcap v) 0) as [H0|H0].
    - destruct Hr as [_ [rest Ho]]. pose proof (owns_cap Hz _ _ _ Ho) as Hcap.
      destruct Ho as (_&_&_&Hd). unfold sp_dealloc, ga_dealloc. unfold vdata in Hd.
      destruct (sp_ptr (v_ptr v)) as [|b]; [|lia].
      eexists _, _. split; [|by right]. erewrite bind_UB; [reflexivity|].
      apply on_snd_Ret. erewrite bind_UB; reflexivity.
    - destruct (rep_dealloc Hz w v xs Hr) as (w'&He&Hh&_); [lia|].
      exists UseAfterFree. eexists. split; [|by left]. erewrite bind_UB; [reflexivity|].
      apply on_snd_Ret. erewrite bind_Ret by exact He.
      unfold vec_drop_val, vec_drop. rewrite bind_get_fst, (proj2 (N.ltb_lt _ _)) by lia.
      destruct Hr as [_ [rest (_&Hsl&_&Hd)]]. unfold vrest in Hh.
      pose proof (vcap_pos Hz v) as Hvc.
      destruct (vdata v) as [|b] eqn:Hv.
      { rewrite Hd in Hsl. simpl in Hsl. lia. }
      assert (heap w' !! b = None) as Hnone by (rewrite Hh; apply lookup_delete).
      destruct (drop_loop_gone b w' Hnone (N.to_nat (v_len v)) 0) as [E|E].
      + rewrite (bind_on_snd_Ret _ _ _ _ _ _ E).
        unfold on_snd, sp_dealloc, ga_dealloc. unfold vdata in Hv. rewrite Hv. simpl.
        by rewrite Hnone.
      + rewrite (bind_UB _ _ _ UseAfterFree (v, w')); [reflexivity|]. apply on_snd_Ret. exact E.
  Qed.
End small_run.
