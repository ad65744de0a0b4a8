(** Every computation keeps the allocator log in agreement with the heap. *)
From Verif Require Export VecRun SpecLog.
From Coq Require Import ZifyBool ZifyNat ZifyN.

Lemma replay_app m evs1 : forall evs2,
  replay m (evs1 ++ evs2) = m' ← replay m evs1; replay m' evs2.
Proof.
  revert m. induction evs1 as [|e evs1 IH]; intros m evs2; [done|].
  destruct e as [s q|a l [b|]|a b l n [b'|]|a b l]; simpl; rewrite ?IH; repeat case_match; done.
Qed.

Section log.
  Context {EN : Env} {T : Type} {EL : Elem T}.
  Notation W := (world T).
  Context (m0 : owners) (E0 : list aevent).

  Definition logged (w : W) : Prop :=
    fresh_ids w /\ exists evs, events w = E0 ++ evs /\ replay m0 evs = Some (live_blocks w).

  Definition pres {S A} (pr : S -> W) (m : M S A) : Prop :=
    forall s, logged (pr s) -> logged (pr (snd (m s))).

  Section combinators.
    Context {S : Type} (pr : S -> W).
    Lemma pres_ret {A} (a : A) : pres pr (ret a). Proof. by intros ??. Qed.
    Lemma pres_throw {A} p : pres pr (throw p : M S A). Proof. by intros ??. Qed.
    Lemma pres_undef {A} u : pres pr (undef u : M S A). Proof. by intros ??. Qed.
    Lemma pres_bind {A B} (m : M S A) (k : A -> M S B) :
      pres pr m -> (forall a, pres pr (k a)) -> pres pr (bind m k).
    Proof.
      intros Hm Hk s Hs. unfold bind. specialize (Hm s Hs). destruct (m s) as [[a|p| |u] s']; try done.
      by apply Hk.
    Qed.
    Lemma pres_on_unwind {A} (m : M S A) c : pres pr m -> pres pr c -> pres pr (on_unwind m c).
    Proof.
      intros Hm Hc s Hs. unfold on_unwind. specialize (Hm s Hs).
      destruct (m s) as [[a|p| |u] s']; try done. specialize (Hc s' Hm).
      by destruct (c s') as [[]].
    Qed.
    Lemma pres_finally {A} (m : M S A) c : pres pr m -> pres pr c -> pres pr (finally m c).
    Proof.
      intros. unfold finally. apply pres_bind; [by apply pres_on_unwind|]. intros.
      apply pres_bind; [done|]. intros. apply pres_ret.
    Qed.
    Lemma pres_uadd a b : pres pr (uadd a b).
    Proof. unfold uadd. repeat case_match; by intros ??. Qed.
    Lemma pres_usub a b : pres pr (usub a b).
    Proof. unfold usub. repeat case_match; by intros ??. Qed.
    Lemma pres_umul a b : pres pr (umul a b).
    Proof. unfold umul. repeat case_match; by intros ??. Qed.
    Lemma pres_debug_assert c : pres pr (debug_assert c).
    Proof. unfold debug_assert. repeat case_match; by intros ??. Qed.
    Lemma pres_assert c : pres pr (assert c).
    Proof. unfold assert. repeat case_match; by intros ??. Qed.
    Lemma pres_assume c u : pres pr (assume c u).
    Proof. unfold assume. repeat case_match; by intros ??. Qed.
    Lemma pres_guarded a b : pres pr (overflow_guarded_add a b).
    Proof. unfold overflow_guarded_add. repeat case_match; by intros ??. Qed.
    Lemma pres_unwrap {A E} (r : result A E) : pres pr (unwrap r).
    Proof. destruct r; by intros ??. Qed.
  End combinators.

  Lemma pres_on_snd {V A} (m : M W A) : pres id m -> pres snd (on_snd (V := V) m).
  Proof.
    intros Hm [v w] Hs. unfold on_snd. simpl in *. specialize (Hm w Hs).
    by destruct (m w) as [r w'].
  Qed.
  Lemma pres_get_fst {V} : pres (S := V * W) snd get_fst. Proof. by intros ??. Qed.
  Lemma pres_put_fst {V} (v : V) : pres (S := V * W) snd (put_fst v). Proof. by intros ??. Qed.
  Lemma pres_with_local {V A} (v : V) (m : M (V * W) A) c :
    pres snd m -> pres snd c -> pres id (with_local v m c).
  Proof.
    intros Hm Hc w Hs. unfold with_local.
    pose proof (pres_on_unwind snd m c Hm Hc (v, w) Hs) as H.
    by destruct (on_unwind m c (v, w)) as [r [v' w']].
  Qed.

  (** Primitives. *)
  Lemma live_lookup (w : W) b : live_blocks w !! b = (fun blk : block T => (b_alloc blk, b_layout blk)) <$> heap w !! b.
  Proof. unfold live_blocks. by rewrite lookup_fmap. Qed.
  Lemma logged_same w w' :
    logged w -> heap w' = heap w -> next_id w' = next_id w -> events w' = events w -> logged w'.
  Proof.
    intros [Hf He] Hh Hn Hev. unfold logged, fresh_ids, live_blocks in *. by rewrite Hh, Hn, Hev.
  Qed.
  Lemma logged_event w e : logged w ->
    (forall m, replay m [e] = Some m) -> logged (add_event e w).
  Proof.
    intros (Hf&evs&He&Hr) Hm. split; [done|]. exists (evs ++ [e]). simpl.
    rewrite He, <-app_assoc, replay_app, Hr. split; [done|]. exact (Hm _).
  Qed.

  Lemma pres_alloc_for sel : pres id (alloc_for sel).
  Proof.
    intros w Hs. unfold id in *. unfold alloc_for. destruct (cur_scope w); [|done]. simpl. by apply logged_event.
  Qed.
  Lemma pres_ga_alloc a l : pres id (ga_alloc a l).
  Proof.
    intros w Hs. unfold id in *. unfold ga_alloc. destruct (l_size l =? 0); [done|].
    destruct (e_aok _ _); simpl; unfold id in *.
    - destruct Hs as (Hf&evs&He&Hr). split.
      + intros b Hb. simpl in *. rewrite lookup_insert_ne by lia. apply Hf. lia.
      + eexists. simpl. rewrite He, <-app_assoc. split; [done|].
        rewrite replay_app, Hr. simpl. rewrite live_lookup, (Hf (next_id w)) by lia.
        simpl. unfold live_blocks. simpl. by rewrite fmap_insert.
    - eapply (logged_same (add_event (EvAlloc a l None) w)); [|done..]. by apply logged_event.
  Qed.
  Lemma pres_ga_dealloc a p l : pres id (ga_dealloc a p l).
  Proof.
    intros w Hs. unfold id in *. unfold ga_dealloc. destruct p as [|b]; [done|].
    destruct (heap w !! b) as [blk|] eqn:Eb; [|done]. destruct (decide _) as [[<- <-]|]; [|done].
    simpl. destruct Hs as (Hf&evs&He&Hr). split.
    - intros b' Hb'. simpl in *. destruct (decide (b = b')) as [->|]; [by rewrite lookup_delete|].
      rewrite lookup_delete_ne by done. by apply Hf.
    - eexists. simpl. rewrite He, <-app_assoc. split; [done|].
      rewrite replay_app, Hr. simpl. rewrite decide_True by (by rewrite live_lookup, Eb). unfold live_blocks. simpl. by rewrite fmap_delete.
  Qed.
  Lemma pres_ga_realloc a p l n : pres id (ga_realloc a p l n).
  Proof.
    intros w Hs. unfold id in *. unfold ga_realloc. destruct p as [|b]; [done|].
    destruct (heap w !! b) as [blk|] eqn:Eb; [|done]. destruct (decide _) as [[<- <-]|]; [|done].
    destruct (n =? 0); [done|]. destruct (_ <? n); [done|].
    destruct Hs as (Hf&evs&He&Hr). unfold id in *.
    destruct (e_aok _ _); simpl.
    - split.
      + intros b' Hb'. simpl in *. rewrite lookup_insert_ne by lia.
        destruct (decide (b = b')) as [->|]; [by rewrite lookup_delete|].
        rewrite lookup_delete_ne by done. apply Hf. lia.
      + eexists. simpl. rewrite He, <-app_assoc. split; [done|].
        rewrite replay_app, Hr. simpl. rewrite decide_True by (by rewrite live_lookup, Eb).
        rewrite live_lookup, (Hf (next_id w)) by lia.
        simpl. unfold live_blocks. simpl. by rewrite fmap_insert, fmap_delete.
    - split; [done|]. eexists. simpl. rewrite He, <-app_assoc. split; [done|].
      rewrite replay_app, Hr. simpl. by rewrite decide_True by (by rewrite live_lookup, Eb).
  Qed.
  Lemma pres_get_slots p : pres id (get_slots (T := T) p).
  Proof. intros w Hs. unfold get_slots. repeat case_match; done. Qed.
  Lemma pres_put_slots p s : pres id (put_slots (T := T) p s).
  Proof.
    intros w Hs. unfold id in *. unfold put_slots. destruct p as [|b]; [done|]. unfold id in *.
    destruct (heap w !! b) as [blk|] eqn:Eb; [|done]. simpl. destruct Hs as (Hf&evs&He&Hr). split.
    - intros b' Hb'. simpl in *. destruct (decide (b = b')) as [->|]; [|rewrite lookup_insert_ne by done; by apply Hf].
      by rewrite Hf in Eb.
    - exists evs. split; [done|]. rewrite Hr. f_equal. unfold live_blocks. simpl. rewrite fmap_insert.
      simpl. symmetry. apply insert_id. by rewrite lookup_fmap, Eb.
  Qed.
  Lemma pres_drop_val x : pres id (drop_val x).
  Proof. intros w Hs. by eapply logged_same. Qed.

  Hint Resolve pres_ret pres_throw pres_undef pres_uadd pres_usub pres_umul pres_debug_assert
    pres_assert pres_assume pres_guarded pres_unwrap pres_get_fst pres_put_fst pres_alloc_for
    pres_ga_alloc pres_ga_dealloc pres_ga_realloc pres_get_slots pres_put_slots pres_drop_val : pres.

  Ltac pp := repeat first
    [ solve [auto with pres]
    | apply pres_bind; [|intros ?]
    | apply pres_on_unwind | apply pres_finally
    | apply pres_on_snd
    | apply pres_with_local
    | match goal with |- pres _ (if ?c then _ else _) => destruct c end
    | match goal with |- pres _ (match ?c with _ => _ end) => destruct c end
    | match goal with |- pres _ (let '(_, _) := ?c in _) => destruct c end
    | progress unfold vx_get_len ].

  Lemma pres_read_at p i : pres id (read_at p i).
  Proof. unfold read_at. pp. Qed.
  Lemma pres_write_at p i x : pres id (write_at p i x).
  Proof. unfold write_at. pp. Qed.
  Hint Resolve pres_read_at pres_write_at : pres.
  Lemma pres_copy_in q j l : pres id (copy_in q j l).
  Proof. unfold copy_in. pp. Qed.
  Hint Resolve pres_copy_in : pres.
  Lemma pres_copy_at p i q j n : pres id (copy_at p i q j n).
  Proof. unfold copy_at, copy_out. pp. Qed.
  Hint Resolve pres_copy_at : pres.
  Lemma pres_copy_no p i q j n : pres id (copy_nonoverlapping p i q j n).
  Proof. unfold copy_nonoverlapping. pp. Qed.
  Hint Resolve pres_copy_no : pres.
  Lemma pres_drop_at p i : pres id (drop_at p i).
  Proof.
    unfold drop_at. pp. intros w Hs. pose proof (pres_get_slots p w Hs) as H.
    destruct (get_slots p w) as [[s|?| |?] w']; try done. repeat case_match; try done.

  Qed.
  Hint Resolve pres_drop_at : pres.
  Lemma pres_drop_loop p n : forall i, pres id (drop_loop p i n).
  Proof. induction n; intros i; simpl; pp. Qed.
  Lemma pres_drop_slice_glue p n : forall b i, pres id (drop_slice_glue b p i n).
  Proof.
    induction n as [|n IH]; intros b i; simpl; [pp|]. intros w Hs.
    pose proof (pres_drop_at p i w Hs) as H. destruct (drop_at p i w) as [[a|?| |?] w'] eqn:E; try done.
    - by apply IH.
    - destruct b; [done|]. by apply IH.
  Qed.
  Lemma pres_drop_slice p i n : pres id (drop_slice p i n).
  Proof. apply pres_drop_slice_glue. Qed.
  Lemma pres_drop_vals_glue l : forall b, pres id (drop_vals_glue b l).
  Proof.
    induction l as [|x l IH]; intros b; simpl; [pp|]. intros w Hs.
    assert (H : logged (add_drop x w)) by (by eapply logged_same).
    destruct (t_needs_drop && t_drop_panics x); [destruct b; [done|]|]; by apply IH.
  Qed.
  Lemma pres_drop_vals l : pres id (drop_vals l).
  Proof. apply pres_drop_vals_glue. Qed.
  Lemma pres_read_list p n : forall i, pres id (read_list p i n).
  Proof. induction n; intros i; simpl; pp. Qed.
  Lemma pres_clone_val x : pres id (clone_val x).
  Proof. unfold clone_val. pp. Qed.
  Hint Resolve pres_drop_loop pres_drop_slice pres_drop_vals pres_read_list pres_clone_val : pres.

  Lemma pres_alloc_layout l n sel : pres id (alloc_layout l n sel).
  Proof. unfold alloc_layout. pp. Qed.
  Hint Resolve pres_alloc_layout : pres.
  Lemma pres_sp_alloc_val x sel : pres id (sp_alloc_val x sel).
  Proof. unfold sp_alloc_val. pp. Qed.
  Lemma pres_sp_dealloc p : pres id (sp_dealloc p).
  Proof. unfold sp_dealloc. pp. Qed.
  Hint Resolve pres_sp_dealloc pres_sp_alloc_val : pres.
  Lemma pres_sp_drop p : pres id (sp_drop p).
  Proof. unfold sp_drop. pp. Qed.
  Hint Resolve pres_sp_drop : pres.
  Lemma pres_box_new_with x m : pres id (box_new_with x m).
  Proof. unfold box_new_with. pp. Qed.
  Lemma pres_alloc_array n sel : pres id (alloc_array_uninit n sel).
  Proof. unfold alloc_array_uninit. pp. Qed.
  Lemma pres_realloc_array p n : pres id (realloc_array p n).
  Proof. unfold realloc_array. pp. Qed.
  Hint Resolve pres_alloc_array pres_realloc_array : pres.
  Lemma pres_with_marker m : pres id (vec_with_marker m).
  Proof. unfold vec_with_marker. pp. Qed.
  Lemma pres_new : pres id vec_new.
  Proof. apply pres_with_marker. Qed.
  Hint Resolve pres_with_marker pres_new : pres.
  Lemma pres_try_with_capacity c m : pres id (vec_try_with_capacity_and_marker c m).
  Proof. unfold vec_try_with_capacity_and_marker. pp. Qed.
  Hint Resolve pres_try_with_capacity : pres.
  Lemma pres_with_capacity c : pres id (vec_with_capacity c).
  Proof. unfold vec_with_capacity, vec_try_with_capacity. pp. Qed.
  Hint Resolve pres_with_capacity : pres.
  Lemma pres_set_len n : pres snd (vec_set_len n).
  Proof. unfold vec_set_len. pp. Qed.
  Hint Resolve pres_set_len : pres.
  Lemma pres_as_slice v : pres id (vec_as_slice v).
  Proof. unfold vec_as_slice. pp. Qed.
  Hint Resolve pres_as_slice : pres.
  Lemma pres_vec_realloc n : pres snd (vec_realloc n).
  Proof. unfold vec_realloc. pp. Qed.
  Hint Resolve pres_vec_realloc : pres.
  Lemma pres_grow_exact n : pres snd (vec_grow_exact n).
  Proof. unfold vec_grow_exact. pp. Qed.
  Hint Resolve pres_grow_exact : pres.
  Lemma pres_grow_amortized n : pres snd (vec_grow_amortized n).
  Proof. unfold vec_grow_amortized. pp. Qed.
  Hint Resolve pres_grow_amortized : pres.
  Lemma pres_try_reserve_exact n : pres snd (vec_try_reserve_exact n).
  Proof. unfold vec_try_reserve_exact. pp. Qed.
  Lemma pres_try_reserve n : pres snd (vec_try_reserve n).
  Proof. unfold vec_try_reserve. pp. Qed.
  Hint Resolve pres_try_reserve_exact pres_try_reserve : pres.
  Lemma pres_reserve_exact n : pres snd (vec_reserve_exact n).
  Proof. unfold vec_reserve_exact. pp. Qed.
  Lemma pres_reserve n : pres snd (vec_reserve n).
  Proof. unfold vec_reserve. pp. Qed.
  Hint Resolve pres_reserve_exact pres_reserve : pres.
  Lemma pres_shrink n : pres snd (vec_shrink n).
  Proof. unfold vec_shrink. pp. Qed.
  Hint Resolve pres_shrink : pres.
  Lemma pres_shrink_to_fit : pres snd vec_shrink_to_fit.
  Proof. unfold vec_shrink_to_fit. pp. Qed.
  Lemma pres_shrink_to m : pres snd (vec_shrink_to m).
  Proof. unfold vec_shrink_to. pp. Qed.
  Lemma pres_clear : pres snd vec_clear.
  Proof. unfold vec_clear. pp. Qed.
  Lemma pres_push x : pres snd (vec_push x).
  Proof. unfold vec_push. pp. Qed.
  Lemma pres_pop : pres snd vec_pop.
  Proof. unfold vec_pop. pp. Qed.
  Lemma pres_vec_drop : pres snd vec_drop.
  Proof. unfold vec_drop. pp. Qed.
  Hint Resolve pres_shrink_to_fit pres_shrink_to pres_clear pres_push pres_pop pres_vec_drop : pres.
  Lemma pres_vec_drop_val v : pres id (vec_drop_val v).
  Proof.
    intros w Hs. unfold vec_drop_val. pose proof (pres_vec_drop (v, w) Hs) as H.
    by destruct (vec_drop (v, w)) as [r [v' w']].
  Qed.
  Hint Resolve pres_vec_drop_val : pres.
  Lemma pres_append o : pres snd (vec_append o).
  Proof. unfold vec_append. pp. Qed.
  Lemma pres_push_clones l : pres snd (vec_push_clones l).
  Proof. induction l; simpl; pp. Qed.
  Hint Resolve pres_append pres_push_clones : pres.
  Lemma pres_extend_from_slice l : pres snd (vec_extend_from_slice l).
  Proof. unfold vec_extend_from_slice. pp. Qed.
  Lemma pres_push_all it : pres snd (vec_push_all it).
  Proof. induction it as [|[x|] it]; simpl; pp. Qed.
  Hint Resolve pres_extend_from_slice pres_push_all : pres.
  Lemma pres_extend_from_iter it h : pres snd (vec_extend_from_iter it h).
  Proof. unfold vec_extend_from_iter. pp. Qed.
  Lemma pres_swap_remove i : pres snd (vec_swap_remove i).
  Proof. unfold vec_swap_remove. pp. Qed.
  Lemma pres_insert i x : pres snd (vec_insert i x).
  Proof. unfold vec_insert. pp. Qed.
  Lemma pres_truncate n : pres snd (vec_truncate n).
  Proof. unfold vec_truncate. pp. Qed.
  Lemma pres_remove i : pres snd (vec_remove i).
  Proof. unfold vec_remove. pp. Qed.
  Lemma pres_index i : pres snd (vec_index i).
  Proof. unfold vec_index. pp. Qed.
  Lemma pres_assign i x : pres snd (vec_assign i x).
  Proof. unfold vec_assign. pp. Qed.
  Lemma pres_get i : pres snd (vec_get i).
  Proof. unfold vec_get. pp. Qed.
  Lemma pres_from_array l : pres id (vec_from_array l).
  Proof. unfold vec_from_array. pp. Qed.
  Hint Resolve pres_extend_from_iter pres_swap_remove pres_insert pres_truncate pres_remove
    pres_index pres_assign pres_get pres_from_array : pres.

  (** Code generic in [Vecx]. *)
  Class PresVecx (V : Type) `{!Vecx T V} := {
    pv_set_len : forall n, pres snd (vx_set_len (V := V) n);
    pv_read : forall i, pres snd (vx_read (V := V) i);
    pv_write : forall i x, pres snd (vx_write (V := V) i x);
    pv_drop_at : forall i, pres snd (vx_drop_at (V := V) i);
    pv_copy : forall i j n, pres snd (vx_copy (V := V) i j n);
    pv_copy_no : forall i j n, pres snd (vx_copy_no (V := V) i j n);
    pv_truncate : forall n, pres snd (vx_truncate (V := V) n);
    pv_push : forall x, pres snd (vx_push (V := V) x);
    pv_reserve_exact : forall n, pres snd (vx_reserve_exact (V := V) n)
  }.
  Section generic.
    Context {V : Type} {VX : Vecx T V} {PV : PresVecx V}.
    Hint Resolve pv_set_len pv_read pv_write pv_drop_at pv_copy pv_copy_no pv_truncate pv_push
      pv_reserve_exact : pres.
    Lemma pres_push_next (next : nat -> M (V * W) T) n :
      (forall k, pres snd (next k)) -> forall k, pres snd (push_next next k n).
    Proof. intros. revert k. induction n; intros k; simpl; pp. Qed.
    Hint Resolve pres_push_next : pres.
    Lemma pres_do_resize (next last : nat -> M (V * W) T) c n :
      (forall k, pres snd (next k)) -> (forall k, pres snd (last k)) -> pres snd c ->
      pres snd (do_resize next last c n).
    Proof. intros. unfold do_resize. pp. Qed.
    Lemma pres_resize_val n x : pres snd (resize_val (V := V) n x).
    Proof. apply pres_do_resize; intros; pp. Qed.
    Lemma pres_resize_fn n g : pres snd (resize_fn (V := V) n g).
    Proof. apply pres_do_resize; intros; unfold call_fn; pp. Qed.
    Lemma pres_retain_new b : pres snd (retain_new (V := V) b).
    Proof. unfold retain_new. pp. Qed.
    Lemma pres_keep_next a b : pres snd (keep_next (V := V) a b).
    Proof. unfold keep_next. pp. Qed.
    Lemma pres_discard_next a : pres snd (discard_next (V := V) a).
    Proof. unfold discard_next. pp. Qed.
    Hint Resolve pres_retain_new pres_keep_next pres_discard_next : pres.
    Lemma pres_retain_loop {St} (f : St -> T -> St * option bool) n : forall st a b,
      pres snd (retain_loop (V := V) f st a b n).
    Proof. induction n; intros st a b; simpl; pp. Qed.
    Hint Resolve pres_retain_loop : pres.
    Lemma pres_retain {St} (f : St -> T -> St * option bool) st : pres snd (retain (V := V) f st).
    Proof. unfold retain. pp. Qed.
    Lemma pres_dedup_by_loop {St} (f : St -> T -> T -> St * (T * T) * option bool) n :
      forall st k a b, pres snd (dedup_by_loop (V := V) f st k a b n).
    Proof. induction n; intros st k a b; simpl; pp. Qed.
    Hint Resolve pres_dedup_by_loop : pres.
    Lemma pres_dedup_by {St} (f : St -> T -> T -> St * (T * T) * option bool) st :
      pres snd (dedup_by (V := V) f st).
    Proof. unfold dedup_by. pp. Qed.
    Lemma pres_dedup_key_loop {St K} (keq : K -> K -> bool) (key : St -> T -> St * T * option K) n :
      forall st k a b, pres snd (dedup_key_loop (V := V) keq key st k a b n).
    Proof. induction n; intros st k a b; simpl; pp. Qed.
    Hint Resolve pres_dedup_key_loop : pres.
    Lemma pres_dedup_by_key {St K} (keq : K -> K -> bool) (key : St -> T -> St * T * option K) st :
      pres snd (dedup_by_key (V := V) keq key st).
    Proof. unfold dedup_by_key. pp. Qed.
  End generic.

  Global Instance vec_pres : PresVecx vec.
  Proof. constructor; intros; simpl; pp. Qed.

  Lemma pres_vexec op : pres snd (vexec op).
  Proof.
    assert (forall n x, pres snd (resize_val (V := vec) n x)) by apply pres_resize_val.
    assert (forall n g, pres snd (resize_fn (V := vec) n g)) by apply pres_resize_fn.
    destruct op; simpl; pp. intros [v w] Hs. by eapply logged_same.
  Qed.

  Lemma logged_vrun ops : forall st, logged (snd st) -> logged (snd (snd (vrun ops st))).
  Proof.
    induction ops as [|op ops IH]; intros st Hs; simpl; [done|].
    pose proof (pres_vexec op st Hs) as H. destruct (vexec op st) as [[a|p| |u] st']; try done.
    all: specialize (IH st' H); by destruct (vrun ops st').
  Qed.
End log.

Lemma logged_start {T} (w : world T) : fresh_ids w -> logged (live_blocks w) (events w) w.
Proof. intros Hf. split; [done|]. exists []. by rewrite app_nil_r. Qed.
