(** The marker of a small vector, and which markers its allocator requests carry. *)
From Verif Require Export VecProofs9 SmallRun.
From Coq Require Import ZifyBool ZifyNat ZifyN.

Section small_marker.
  Context {EN : Env} {T : Type} {EL : Elem T} (Cap : N).
  Notation W := (world T).
  Notation MK := (M (stackvec T * W)).
  Notation MS := (M (svec T * W)).

  (** Computations on an inline vector never use the allocator. *)
  Definition quiet {A} (c : MK A) : Prop := forall st, events (snd (snd (c st))) = events (snd st).

  Lemma quiet_ret {A} (a : A) : quiet (ret a). Proof. done. Qed.
  Lemma quiet_throw {A} p : quiet (throw p : MK A). Proof. done. Qed.
  Lemma quiet_undef {A} u : quiet (undef u : MK A). Proof. done. Qed.
  Lemma quiet_get : quiet get_fst. Proof. done. Qed.
  Lemma quiet_put k : quiet (put_fst k). Proof. done. Qed.
  Lemma quiet_bind {A B} (c : MK A) (k : A -> MK B) :
    quiet c -> (forall a, quiet (k a)) -> quiet (bind c k).
  Proof.
    intros Hc Hk st. unfold bind. specialize (Hc st). destruct (c st) as [[a|p| |u] st']; try done.
    simpl in Hc. by rewrite (Hk a st').
  Qed.
  Lemma quiet_on_unwind {A} (c : MK A) d : quiet c -> quiet d -> quiet (on_unwind c d).
  Proof.
    intros Hc Hd st. unfold on_unwind. specialize (Hc st). destruct (c st) as [[a|p| |u] st']; try done.
    specialize (Hd st'). destruct (d st') as [[] st'']; simpl in *; congruence.
  Qed.
  Lemma quiet_finally {A} (c : MK A) d : quiet c -> quiet d -> quiet (finally c d).
  Proof.
    intros. unfold finally. apply quiet_bind; [by apply quiet_on_unwind|]. intros.
    apply quiet_bind; [done|]. intros. apply quiet_ret.
  Qed.
  Lemma quiet_uadd a b : quiet (uadd a b). Proof. unfold uadd. by repeat case_match. Qed.
  Lemma quiet_usub a b : quiet (usub a b). Proof. unfold usub. by repeat case_match. Qed.
  Lemma quiet_debug_assert c : quiet (debug_assert c). Proof. unfold debug_assert. by repeat case_match. Qed.
  Lemma quiet_assert c : quiet (assert c). Proof. unfold assert. by repeat case_match. Qed.
  Lemma quiet_assume c u : quiet (assume c u). Proof. unfold assume. by repeat case_match. Qed.
  Lemma quiet_drop_val x : quiet (on_snd (drop_val x)). Proof. intros [k w]. done. Qed.
  Lemma quiet_clone_val x : quiet (on_snd (clone_val x)).
  Proof. intros [k w]. unfold on_snd, clone_val. simpl. by destruct (t_clone x). Qed.

  Create HintDb qdb.
  Hint Resolve quiet_ret quiet_throw quiet_undef quiet_get quiet_put quiet_uadd quiet_usub
    quiet_debug_assert quiet_assert quiet_assume quiet_drop_val quiet_clone_val : qdb.
  Ltac qq := repeat first
    [ match goal with |- forall _, _ => intro end
    | solve [auto with qdb]
    | match goal with
      | |- quiet (bind _ _) => apply quiet_bind
      | |- quiet (on_unwind _ _) => apply quiet_on_unwind
      | |- quiet (finally _ _) => apply quiet_finally
      | |- quiet (if ?b then _ else _) => destruct b
      | |- quiet (match ?b with _ => _ end) => destruct b
      end ].
  Lemma quiet_sk_read i : quiet (sk_read i). Proof. unfold sk_read. qq. Qed.
  Lemma quiet_sk_write i x : quiet (sk_write i x). Proof. unfold sk_write. qq. Qed.
  Lemma quiet_sk_drop_at i : quiet (sk_drop_at i). Proof. unfold sk_drop_at. qq. Qed.
  Lemma quiet_sk_copy i j n : quiet (sk_copy i j n). Proof. unfold sk_copy. qq. Qed.
  Hint Resolve quiet_sk_read quiet_sk_write quiet_sk_drop_at quiet_sk_copy : qdb.
  Lemma quiet_sk_copy_no i j n : quiet (sk_copy_no i j n). Proof. unfold sk_copy_no. qq. Qed.
  Lemma quiet_sk_drop_range n : forall i, quiet (sk_drop_range i n).
  Proof. induction n; intros i; simpl; qq. Qed.
  Lemma quiet_sk_read_list n : forall i, quiet (sk_read_list i n).
  Proof. induction n; intros i; simpl; qq. Qed.
  Lemma quiet_sk_set_len n : quiet (sk_set_len Cap n). Proof. unfold sk_set_len. qq. Qed.
  Hint Resolve quiet_sk_copy_no quiet_sk_drop_range quiet_sk_read_list quiet_sk_set_len : qdb.
  Lemma quiet_sk_as_slice : quiet sk_as_slice. Proof. unfold sk_as_slice. qq. Qed.
  Lemma quiet_sk_clear : quiet (sk_clear Cap). Proof. unfold sk_clear. qq. Qed.
  Lemma quiet_sk_push x : quiet (sk_unchecked_push Cap x). Proof. unfold sk_unchecked_push. qq. Qed.
  Lemma quiet_sk_pop : quiet (sk_pop Cap). Proof. unfold sk_pop. qq. Qed.
  Lemma quiet_sk_insert i x : quiet (sk_unchecked_insert Cap i x).
  Proof. unfold sk_unchecked_insert. qq. Qed.
  Lemma quiet_sk_remove i : quiet (sk_remove Cap i). Proof. unfold sk_remove, sk_unchecked_remove. qq. Qed.
  Lemma quiet_sk_truncate n : quiet (sk_truncate Cap n). Proof. unfold sk_truncate. qq. Qed.
  Lemma quiet_sk_swap_remove i : quiet (sk_swap_remove Cap i). Proof. unfold sk_swap_remove. qq. Qed.
  Lemma quiet_sk_drop : quiet sk_drop. Proof. unfold sk_drop. qq. Qed.
  Hint Resolve quiet_sk_as_slice quiet_sk_clear quiet_sk_push quiet_sk_pop quiet_sk_insert quiet_sk_remove
    quiet_sk_truncate quiet_sk_swap_remove quiet_sk_drop : qdb.
  Lemma quiet_push_next (next : nat -> MK T) n : (forall k, quiet (next k)) ->
    forall k, quiet (@push_next _ _ (stack_vecx Cap) next k n).
  Proof. intros Hn. induction n as [|n IH]; intros k; simpl; qq. Qed.
  Lemma quiet_do_resize (next last : nat -> MK T) cl n :
    (forall k, quiet (next k)) -> (forall k, quiet (last k)) -> quiet cl ->
    quiet (@do_resize _ _ _ (stack_vecx Cap) next last cl n).
  Proof. intros H1 H2 H3. unfold do_resize, vx_get_len. simpl. qq. by apply quiet_push_next. Qed.
  Lemma quiet_resize_val n x : quiet (@resize_val _ _ _ _ (stack_vecx Cap) n x).
  Proof. apply quiet_do_resize; qq. Qed.
  Lemma quiet_resize_fn n g : quiet (@resize_fn _ _ _ (stack_vecx Cap) n g).
  Proof. apply quiet_do_resize; unfold call_fn; qq. Qed.
  Hint Resolve quiet_resize_val quiet_resize_fn : qdb.

  (** The marker of the vector is [m], also in the memory it holds, and allocators are selected
      with [m]. *)
  Context (Hz : 0 < t_size) (m : marker).
  Definition holds (s : svec T) : Prop :=
    sv_marker s = m /\ match sv_store s with Heap v => vmarker v = m | Stack _ => True end.
  Definition sm_step (st st' : svec T * W) : Prop :=
    holds (fst st) -> holds (fst st') /\
    exists evs, events (snd st') = events (snd st) ++ evs /\ Forall (sel_ok m) evs.
  Definition smarked {A} (c : MS A) : Prop := forall st, sm_step st (snd (c st)).

  Lemma sm_refl st : sm_step st st.
  Proof. intros H. split; [done|]. exists []. by rewrite app_nil_r. Qed.
  Lemma sm_trans a b c : sm_step a b -> sm_step b c -> sm_step a c.
  Proof.
    intros H1 H2 Ha. destruct (H1 Ha) as [Hb (e1&He1&Hf1)]. destruct (H2 Hb) as [Hc (e2&He2&Hf2)].
    split; [done|]. exists (e1 ++ e2). rewrite He2, He1, app_assoc. split; [done|]. by apply Forall_app.
  Qed.
  Lemma smarked_ret {A} (a : A) : smarked (ret a). Proof. intros st. apply sm_refl. Qed.
  Lemma smarked_throw {A} p : smarked (throw p : MS A). Proof. intros st. apply sm_refl. Qed.
  Lemma smarked_get : smarked get_fst. Proof. intros st. apply sm_refl. Qed.
  Lemma smarked_bind {A B} (c : MS A) (k : A -> MS B) :
    smarked c -> (forall a, smarked (k a)) -> smarked (bind c k).
  Proof.
    intros Hm Hk st. unfold bind. specialize (Hm st). destruct (c st) as [[a|p| |u] st']; try done.
    eapply sm_trans; [exact Hm|]. apply Hk.
  Qed.
  Lemma smarked_bind_get {A} (k : svec T -> MS A) :
    (forall s w, sm_step (s, w) (snd (k s (s, w)))) -> smarked (bind get_fst k).
  Proof. intros H [s w]. apply H. Qed.
  Lemma smarked_on_unwind {A} (c : MS A) d : smarked c -> smarked d -> smarked (on_unwind c d).
  Proof.
    intros Hm Hc st. unfold on_unwind. specialize (Hm st).
    destruct (c st) as [[a|p| |u] st']; try done. specialize (Hc st').
    destruct (d st') as [[] st'']; simpl in *; by eapply sm_trans.
  Qed.
  Lemma smarked_uadd a b : smarked (uadd a b).
  Proof. unfold uadd. repeat case_match; intros st; apply sm_refl. Qed.
  Lemma smarked_usub a b : smarked (usub a b).
  Proof. unfold usub. repeat case_match; intros st; apply sm_refl. Qed.
  Lemma smarked_guarded a b : smarked (overflow_guarded_add a b).
  Proof. unfold overflow_guarded_add. repeat case_match; intros st; apply sm_refl. Qed.
  Lemma smarked_unwrap {A E} (r : result A E) : smarked (unwrap r).
  Proof. destruct r; intros st; apply sm_refl. Qed.
  Lemma smarked_on_snd {A} (c : M W A) : hush c -> smarked (on_snd c).
  Proof.
    intros Hm [s w] Hs. unfold on_snd. simpl. destruct (Hm w) as (e&He&Hf).
    destruct (c w) as [r w']. split; [done|]. simpl in *. by exists e.
  Qed.
  Lemma on_heap_step {A} v (c : M (vec * W) A) s w :
    marked c -> vmarker v = m -> sm_step (s, w) (snd (on_heap v c (s, w))).
  Proof.
    intros Hc Hv Hs. unfold on_heap. simpl. destruct (Hc (v, w)) as [H1 H2].
    destruct (c (v, w)) as [r [v' w']]. simpl in *. rewrite Hv in *.
    split; [|done]. split; [apply Hs|done].
  Qed.
  Lemma smarked_redirect {A} (mk : MK A) mv : quiet mk -> marked mv -> smarked (redirect mk mv).
  Proof.
    intros Hk Hv. unfold redirect. apply smarked_bind_get. intros s w Hs.
    destruct s as [[k|v] mm]; simpl.
    - unfold on_stack. simpl. specialize (Hk (k, w)). destruct (mk (k, w)) as [r [k' w']]. simpl in *.
      split; [by split; [apply Hs|]|]. exists []. by rewrite app_nil_r.
    - apply on_heap_step; try done. apply Hs.
  Qed.

  Lemma hush_sp_dealloc p : hush (sp_dealloc (T := T) p).
  Proof.
    intros w. unfold sp_dealloc, ga_dealloc. repeat case_match; simpl;
      first [exists []; split; [by rewrite app_nil_r|by intros]
            |eexists [_]; split; [done|intros; repeat constructor]].
  Qed.
  Lemma marked_vec_drop : marked vec_drop.
  Proof.
    unfold vec_drop. apply marked_bind; [apply marked_get|]. intros v. destruct (0 <? vcap v); [|apply marked_ret].
    apply marked_bind; [apply marked_on_snd, hush_drop_loop|]. intros _. apply marked_on_snd, hush_sp_dealloc.
  Qed.
  Lemma hush_vec_drop_val v : hush (vec_drop_val (T := T) v).
  Proof.
    intros w. unfold vec_drop_val, vec_drop, bind, get_fst. simpl. destruct (0 <? vcap v).
    2: { exists []. by rewrite app_nil_r. }
    unfold on_snd. simpl. destruct (hush_drop_loop (vdata v) (N.to_nat (v_len v)) 0 w) as (e1&He1&Hf1).
    destruct (drop_loop (vdata v) 0 (N.to_nat (v_len v)) w) as [[a|p| |u] w1]; simpl in *; eauto.
    destruct (hush_sp_dealloc (v_ptr v) w1) as (e2&He2&Hf2).
    destruct (sp_dealloc (v_ptr v) w1) as [r w2]. simpl in *. exists (e1 ++ e2).
    rewrite He2, He1, app_assoc. split; [done|]. intros k. apply Forall_app; auto.
  Qed.
  Lemma hush_copy_out p i n : hush (copy_out (T := T) p i n).
  Proof. unfold copy_out. apply hush_bind; [apply hush_get_slots|]. intros s. case_match; first [apply hush_ret|apply hush_undef]. Qed.
  Lemma hush_copy_in p i l : hush (copy_in (T := T) p i l).
  Proof. unfold copy_in. apply hush_bind; [apply hush_get_slots|]. intros s. case_match; first [apply hush_put_slots|apply hush_undef]. Qed.
  Lemma store_copy_kind a i (d : store T) j n w :
    match fst (store_copy a i d j n w) with
    | Ret d' => match d, d' with Heap v, Heap v' => v = v' | Stack _, Stack _ => True | _, _ => False end
    | _ => True
    end /\ exists evs, events (snd (store_copy a i d j n w)) = events w ++ evs /\ forall k, Forall (sel_ok k) evs.
  Proof.
    split.
    - unfold store_copy. destruct (_ || _); [by destruct d|]. unfold bind. destruct (store_out a i n w) as [[l|p| |u] w']; try done.
      unfold store_in. destruct d as [k|v]; [by destruct (_ <=? _)|].
      unfold bind. destruct (copy_in (vdata v) j l w') as [[]]; done.
    - change (hush (store_copy a i d j n)) in |- * || idtac. revert w. fold (hush (store_copy a i d j n)).
      unfold store_copy. destruct (_ || _); [apply hush_ret|]. apply hush_bind.
      + unfold store_out. destruct a; [case_match; first [apply hush_ret|apply hush_undef]|apply hush_copy_out].
      + intros l. unfold store_in. destruct d; [case_match; first [apply hush_ret|apply hush_undef]|].
        apply hush_bind; [apply hush_copy_in|]. intros; apply hush_ret.
  Qed.

  Lemma min_cap_pos : 1 <= min_non_zero_cap.
  Proof. unfold min_non_zero_cap. repeat case_match; lia. Qed.

  Lemma move_step k c s w : sm_step (s, w) (snd ((
      r <- on_snd (vec_try_with_capacity_and_marker (N.max c min_non_zero_cap) m);
      match r with
      | Err e => ret (Err e)
      | Ok v =>
          on_snd (if (t_size =? 0) || (sk_len k =? 0) then ret tt
                  else copy_in (vdata v) 0 (take (N.to_nat (sk_len k)) (sk_slots k))) ;;
          on_heap v (vec_set_len (sk_len k)) ;;
          ret (Ok tt)
      end) (s, w))).
  Proof.
    destruct (vec_try_with_capacity_and_marker (N.max c min_non_zero_cap) m w) as [r w1] eqn:He.
    assert (on_snd (vec_try_with_capacity_and_marker (N.max c min_non_zero_cap) m) (s, w) = (r, (s, w1))) as E
      by (unfold on_snd; simpl; by rewrite He).
    destruct (try_with_capacity_marker (N.max c min_non_zero_cap) m w r w1) as [Hev Hmv];
      [pose proof min_cap_pos; lia|lia|exact He|].
    destruct r as [[v|e]|p| |u]; [| |by unfold bind; rewrite E..].
    2: { erewrite bind_Ret by exact E. by intros ?. }
    erewrite bind_Ret by exact E. intros Hs. specialize (Hmv v eq_refl). destruct Hev as (e1&He1&Hf1).
    assert (hush (if (t_size =? 0) || (sk_len k =? 0) then ret tt
                  else copy_in (vdata v) 0 (take (N.to_nat (sk_len k)) (sk_slots k)))) as Hh
      by (destruct (_ || _); [apply hush_ret|apply hush_copy_in]).
    assert (smarked (on_heap v (vec_set_len (sk_len k)))) as Hv.
    { intros [s1 w']. apply on_heap_step; [apply marked_set_len|done]. }
    pose proof (smarked_bind _ _ (smarked_on_snd _ Hh)
      (fun _ => smarked_bind _ _ Hv (fun _ => smarked_ret (Ok tt : result unit aerr)))) as H2.
    destruct (H2 (s, w1) Hs) as [Ha (e2&He2&Hf2)]. split; [exact Ha|]. exists (e1 ++ e2).
    split; [|by apply Forall_app]. rewrite app_assoc. simpl in He1 |- *. rewrite <-He1. exact He2.
  Qed.
  Lemma smarked_move n : smarked (sv_try_move_to_heap_and_reserve_exact n).
  Proof.
    unfold sv_try_move_to_heap_and_reserve_exact. apply smarked_bind_get. intros [[k|v] mk] w Hs; simpl.
    2: { unfold bind. pose proof (on_heap_step v (vec_reserve_exact n) _ w (marked_reserve_exact n) (proj2 Hs) Hs) as H.
         destruct (on_heap v (vec_reserve_exact n) (SVec (Heap v) mk, w)) as [[] [s' w']]; done. }
    pose proof Hs as [Hm _]. simpl in Hm. subst mk. revert Hs.
    unfold uadd. destruct (_ <=? _); [|destruct e_checks]; rewrite ?bind_ret; try apply move_step.
    apply sm_refl.
  Qed.

  Create HintDb smdb.
  Hint Resolve smarked_ret smarked_throw smarked_get smarked_uadd smarked_usub smarked_guarded smarked_unwrap
    smarked_move hush_drop_val hush_clone_val : smdb.
  Hint Extern 1 (smarked (on_snd _)) => apply smarked_on_snd : smdb.
  Hint Extern 1 (smarked (redirect _ _)) => apply smarked_redirect : smdb.
  Hint Resolve quiet_ret quiet_sk_read quiet_sk_write quiet_sk_set_len quiet_sk_as_slice quiet_sk_clear quiet_sk_push
    quiet_sk_pop quiet_sk_insert quiet_sk_remove quiet_sk_truncate quiet_sk_swap_remove quiet_sk_drop
    quiet_resize_val quiet_resize_fn : smdb.
  Hint Resolve marked_ret marked_set_len marked_push marked_pop marked_truncate marked_vec_drop
    marked_reserve_exact : smdb.
  Ltac sm := repeat first
    [ match goal with |- forall _, _ => intro end
    | match goal with
      | |- smarked (bind _ _) => apply smarked_bind
      | |- smarked (on_unwind _ _) => apply smarked_on_unwind
      end
    | solve [auto with smdb]
    | match goal with
      | |- smarked (if ?b then _ else _) => destruct b
      | |- smarked (match ?b with _ => _ end) => destruct b
      end ].

  Lemma smarked_try_reserve_exact n : smarked (sv_try_reserve_exact Cap n).
  Proof.
    unfold sv_try_reserve_exact. apply smarked_bind_get. intros [[k|v] mk] w; simpl.
    - assert (smarked (c <- overflow_guarded_add (sk_len k) n;
        (if Cap <? c then sv_try_move_to_heap_and_reserve_exact n else ret (Ok tt)))) as H by sm. apply H.
    - intros Hs. apply on_heap_step; [apply marked_try_reserve_exact|apply Hs|done].
  Qed.
  Hint Resolve smarked_try_reserve_exact : smdb.
  Lemma smarked_try_reserve n : smarked (sv_try_reserve Cap n).
  Proof. unfold sv_try_reserve. sm. Qed.
  Hint Resolve smarked_try_reserve : smdb.
  Lemma smarked_reserve n : smarked (sv_reserve Cap n). Proof. unfold sv_reserve. sm. Qed.
  Lemma smarked_reserve_exact n : smarked (sv_reserve_exact Cap n). Proof. unfold sv_reserve_exact. sm. Qed.
  Lemma smarked_move_to_heap : smarked sv_move_to_heap. Proof. unfold sv_move_to_heap. sm. Qed.
  Hint Resolve smarked_reserve smarked_reserve_exact smarked_move_to_heap : smdb.
  Lemma smarked_put k : smarked (put_fst (SVec (Stack k) m)).
  Proof. intros [s w] Hs. split; [done|]. exists []. by rewrite app_nil_r. Qed.
  Lemma smarked_to_stack : smarked (sv_try_move_to_stack Cap).
  Proof.
    unfold sv_try_move_to_stack. apply smarked_bind_get. intros [[k|v] mk] w; simpl; [apply sm_refl|].
    destruct (v_len v <=? Cap); [|apply sm_refl].
    assert (hush (if (t_size =? 0) || (v_len v =? 0) then ret [] else copy_out (vdata v) 0 (v_len v))) as Hh
      by (destruct (_ || _); [apply hush_ret|apply hush_copy_out]).
    assert (hush (vec_dealloc_without_drop (T := T) v)) as Hd.
    { unfold vec_dealloc_without_drop. apply hush_bind; [apply hush_sp_dealloc|]. intros; apply hush_vec_drop_val. }
    intros Hs. pose proof (proj1 Hs) as E. simpl in E. subst mk. revert Hs.
    match goal with |- _ -> holds (fst (snd (?c _))) /\ _ => assert (smarked c) as H; [|apply H] end.
    apply smarked_bind; [by apply smarked_on_snd|]. intros l.
    apply smarked_bind; [apply smarked_put|]. intros _.
    apply smarked_bind; [by apply smarked_on_snd|]. intros _. apply smarked_ret.
  Qed.
  Hint Resolve smarked_to_stack : smdb.
  Lemma smarked_push x : smarked (sv_push Cap x). Proof. unfold sv_push. sm. Qed.
  Lemma marked_insert i x : marked (vec_insert i x).
  Proof.
    intros st. pose proof (marked_vexec (OInsert i x) I st) as H. simpl in H. unfold bind in H.
    by destruct (vec_insert i x st) as [[] st'].
  Qed.
  Lemma marked_remove i : marked (vec_remove i).
  Proof.
    intros st. pose proof (marked_vexec (ORemove i) I st) as H. simpl in H. unfold bind in H.
    by destruct (vec_remove i st) as [[] st'].
  Qed.
  Lemma marked_swap_remove i : marked (vec_swap_remove i).
  Proof.
    intros st. pose proof (marked_vexec (OSwapRemove i) I st) as H. simpl in H. unfold bind in H.
    by destruct (vec_swap_remove i st) as [[] st'].
  Qed.
  Lemma marked_clear : marked vec_clear.
  Proof.
    intros st. pose proof (marked_vexec OClear I st) as H. simpl in H. unfold bind in H.
    by destruct (vec_clear st) as [[] st'].
  Qed.
  Lemma marked_shrink_to n : marked (vec_shrink_to n).
  Proof.
    intros st. pose proof (marked_vexec (OShrinkTo n) I st) as H. simpl in H. unfold bind in H.
    by destruct (vec_shrink_to n st) as [[] st'].
  Qed.
  Lemma marked_shrink_to_fit : marked vec_shrink_to_fit.
  Proof.
    intros st. pose proof (marked_vexec OShrinkToFit I st) as H. simpl in H. unfold bind in H.
    by destruct (vec_shrink_to_fit st) as [[] st'].
  Qed.
  Lemma marked_slice : marked (v <- get_fst; on_snd (vec_as_slice v)).
  Proof.
    intros st. pose proof (marked_vexec OAsSlice I st) as H. simpl in H. unfold bind in *. simpl in *.
    destruct (on_snd (vec_as_slice (fst st)) st) as [[] st']; done.
  Qed.
  Lemma marked_read i : marked (v <- get_fst; on_snd (read_at (vdata v) i)).
  Proof. apply marked_bind; [apply marked_get|]. intros. apply marked_on_snd, hush_read_at. Qed.
  Lemma marked_write i x : marked (v <- get_fst; on_snd (write_at (vdata v) i x)).
  Proof. apply marked_bind; [apply marked_get|]. intros. apply marked_on_snd, hush_write_at. Qed.
  Lemma marked_resize_val n x : marked (resize_val n x).
  Proof.
    apply marked_do_resize; intros; [apply marked_on_snd, hush_clone_val|apply marked_ret|].
    apply marked_on_snd, hush_drop_val.
  Qed.
  Lemma marked_resize_fn n g : marked (resize_fn n g).
  Proof.
    apply marked_do_resize; intros; [..|apply marked_ret]; unfold call_fn; destruct (g k);
      first [apply marked_ret|apply marked_throw].
  Qed.
  Hint Resolve smarked_push marked_insert marked_remove marked_swap_remove marked_clear marked_shrink_to
    marked_shrink_to_fit marked_slice marked_read marked_write marked_resize_val marked_resize_fn : smdb.
  Lemma smarked_insert i x : smarked (sv_insert Cap i x). Proof. unfold sv_insert. sm. Qed.
  Lemma smarked_push_clones l : smarked (sv_push_clones Cap l).
  Proof. induction l as [|x l IH]; simpl; sm. Qed.
  Lemma smarked_push_all it : smarked (sv_push_all Cap it).
  Proof. induction it as [|[x|] it IH]; simpl; sm. Qed.
  Lemma smarked_read i : smarked (sv_read i). Proof. unfold sv_read. sm. Qed.
  Lemma smarked_write i x : smarked (sv_write i x). Proof. unfold sv_write. sm. Qed.
  Lemma smarked_set_len n : smarked (sv_set_len Cap n). Proof. unfold sv_set_len. sm. Qed.
  Hint Resolve smarked_insert smarked_push_clones smarked_push_all smarked_read smarked_write smarked_set_len : smdb.
  Lemma smarked_resize n x : smarked (sv_resize Cap n x). Proof. unfold sv_resize. sm. Qed.
  Lemma smarked_resize_with n g : smarked (sv_resize_with Cap n g). Proof. unfold sv_resize_with. sm. Qed.
  Lemma smarked_drop : smarked sv_drop. Proof. unfold sv_drop. sm. Qed.
  Lemma smarked_append o : smarked (sv_append Cap o).
  Proof.
    unfold sv_append. apply smarked_bind; [sm|]. intros _. apply smarked_bind_get. intros s w Hs.
    destruct (store_copy_kind (sv_store o) 0 (sv_store s) (sv_len s) (sv_len o) w) as [Hk (e&He&Hf)].
    destruct (store_copy (sv_store o) 0 (sv_store s) (sv_len s) (sv_len o) w) as [r w1] eqn:Ec.
    assert (on_snd (store_copy (sv_store o) 0 (sv_store s) (sv_len s) (sv_len o)) (s, w) = (r, (s, w1))) as E
      by (unfold on_snd; simpl; by rewrite Ec).
    simpl in *. assert (sm_step (s, w) (s, w1)) as H1 by (intros _; split; [done|by exists e]).
    destruct r as [d|p| |u]; [|by (unfold bind; rewrite E; apply H1)..].
    erewrite bind_Ret by exact E. refine (sm_trans _ (s, w1) _ H1 _ Hs).
    assert (holds (SVec d (sv_marker s))) as Hd.
    { destruct Hs as [Hm Hs]. split; [done|]. simpl. destruct (sv_store s), d; try done. by subst. }
    match goal with |- sm_step _ (snd (?c _)) => assert (smarked c) as H; [|apply H] end.
    apply smarked_bind; [|intros _; sm]. intros [s' w'] Hs'. split; [done|]. exists []. by rewrite app_nil_r.
  Qed.

  (** Every call except [append] of a vector just collected, which is made with no marker. *)
  Lemma smarked_sexec op : (match op with SAppend _ => False | _ => True end) -> smarked (sexec Cap op).
  Proof.
    intros Hc. destruct op; simpl in Hc |- *; try done.
    all: try (unfold sv_pop, sv_remove, sv_swap_remove, sv_truncate, sv_clear, sv_shrink_to, sv_shrink_to_fit,
      sv_extend_from_slice, sv_extend, sv_index, sv_assign, sv_get, sv_as_slice; sm; fail).
  Qed.
  Lemma smarked_srun ops : Forall (fun op => match op with SAppend _ => False | _ => True end) ops ->
    forall st, sm_step st (snd (srun Cap ops st)).
  Proof.
    induction 1 as [|op ops H1 H2 IH]; intros st; simpl; [apply sm_refl|].
    pose proof (smarked_sexec op H1 st) as H. destruct (sexec Cap op st) as [[a|p| |u] st']; try done.
    all: specialize (IH st'); destruct (srun Cap ops st') as [os st'']; simpl in *; by eapply sm_trans.
  Qed.

  Lemma new_marker c w r w' : sv_try_with_capacity_and_marker Cap c m w = (r, w') ->
    (exists evs, events w' = events w ++ evs /\ Forall (sel_ok m) evs) /\
    (forall s, r = Ret (Ok s) -> holds s).
  Proof.
    unfold sv_try_with_capacity_and_marker. destruct (N.ltb_spec Cap c) as [Hc|Hc].
    2: { intros [= <- <-]. split; [exists []; by rewrite app_nil_r|]. by intros s [= <-]. }
    unfold bind. destruct (vec_try_with_capacity_and_marker c m w) as [r1 w1] eqn:He.
    destruct (try_with_capacity_marker c m w r1 w1) as [Hev Hmv]; [lia|lia|exact He|].
    destruct r1 as [[v|e]|p| |u]; intros [= <- <-]; (split; [done|]); intros s; try done.
    intros [= <-]. split; [done|]. simpl. by apply Hmv.
  Qed.
  Lemma into_vec_marker s w r w' : holds s -> sv_into_vec s w = (r, w') ->
    (exists evs, events w' = events w ++ evs /\ Forall (sel_ok m) evs) /\
    (forall v, r = Ret v -> vmarker v = m).
  Proof.
    intros Hs. unfold sv_into_vec, with_local.
    pose proof (smarked_on_unwind _ _ smarked_move_to_heap smarked_drop (s, w) Hs) as H.
    unfold bind. destruct (on_unwind sv_move_to_heap sv_drop (s, w)) as [[a|p| |u] [s' w1]]; simpl in *;
      destruct H as [Hh Hev]; try (by intros [= <- <-]; split).
    destruct s' as [[k|v] mk]; simpl; intros [= <- <-]; (split; [done|]); try done.
    intros v' [= <-]. apply Hh.
  Qed.
End small_marker.
