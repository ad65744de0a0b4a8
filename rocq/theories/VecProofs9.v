(** The marker of a vector, and which markers its allocator requests carry. *)
From Verif Require Export VecProofs8.
From Coq Require Import ZifyBool ZifyNat ZifyN.

Section marker.
  Context {EN : Env} {T : Type} {EL : Elem T}.
  Notation W := (world T).
  Notation MV := (M (vec * W)).

  (** Allocator selections in a log use the marker [m]. *)
  Definition sel_ok (m : marker) (e : aevent) : Prop :=
    match e with EvSelect _ s => sel_marker s = m | _ => True end.

  Definition mk_step (st st' : vec * W) : Prop :=
    vmarker (fst st') = vmarker (fst st) /\
    exists evs, events (snd st') = events (snd st) ++ evs /\ Forall (sel_ok (vmarker (fst st))) evs.
  Definition marked {A} (m : MV A) : Prop := forall st, mk_step st (snd (m st)).
  (** Computations on the world that never select an allocator. *)
  Definition hush {A} (m : M W A) : Prop :=
    forall w, exists evs, events (snd (m w)) = events w ++ evs /\ forall k, Forall (sel_ok k) evs.

  Lemma mk_refl st : mk_step st st.
  Proof. split; [done|]. exists []. by rewrite app_nil_r. Qed.
  Lemma mk_trans a b c : mk_step a b -> mk_step b c -> mk_step a c.
  Proof.
    intros [H1 (e1&He1&Hf1)] [H2 (e2&He2&Hf2)]. split; [congruence|]. exists (e1 ++ e2).
    rewrite He2, He1, app_assoc. split; [done|]. apply Forall_app. split; [done|]. by rewrite <-H1.
  Qed.

  Lemma marked_ret {A} (a : A) : marked (ret a). Proof. intros st. apply mk_refl. Qed.
  Lemma marked_throw {A} p : marked (throw p : MV A). Proof. intros st. apply mk_refl. Qed.
  Lemma marked_undef {A} u : marked (undef u : MV A). Proof. intros st. apply mk_refl. Qed.
  Lemma marked_get : marked get_fst. Proof. intros st. apply mk_refl. Qed.
  Lemma marked_bind {A B} (m : MV A) (k : A -> MV B) :
    marked m -> (forall a, marked (k a)) -> marked (bind m k).
  Proof.
    intros Hm Hk st. unfold bind. specialize (Hm st). destruct (m st) as [[a|p| |u] st']; try done.
    eapply mk_trans; [exact Hm|]. apply Hk.
  Qed.
  Lemma marked_bind_get {A} (k : vec -> MV A) :
    (forall v w, mk_step (v, w) (snd (k v (v, w)))) -> marked (bind get_fst k).
  Proof. intros H [v w]. apply H. Qed.
  Lemma marked_on_unwind {A} (m : MV A) c : marked m -> marked c -> marked (on_unwind m c).
  Proof.
    intros Hm Hc st. unfold on_unwind. specialize (Hm st).
    destruct (m st) as [[a|p| |u] st']; try done. specialize (Hc st').
    destruct (c st') as [[] st'']; simpl in *; by eapply mk_trans.
  Qed.
  Lemma marked_finally {A} (m : MV A) c : marked m -> marked c -> marked (finally m c).
  Proof.
    intros. unfold finally. apply marked_bind; [by apply marked_on_unwind|]. intros.
    apply marked_bind; [done|]. intros. apply marked_ret.
  Qed.
  Lemma marked_uadd a b : marked (uadd a b).
  Proof. unfold uadd. repeat case_match; intros st; apply mk_refl. Qed.
  Lemma marked_usub a b : marked (usub a b).
  Proof. unfold usub. repeat case_match; intros st; apply mk_refl. Qed.
  Lemma marked_umul a b : marked (umul a b).
  Proof. unfold umul. repeat case_match; intros st; apply mk_refl. Qed.
  Lemma marked_debug_assert c : marked (debug_assert c).
  Proof. unfold debug_assert. repeat case_match; intros st; apply mk_refl. Qed.
  Lemma marked_assert c : marked (assert c).
  Proof. unfold assert. repeat case_match; intros st; apply mk_refl. Qed.
  Lemma marked_assume c u : marked (assume c u).
  Proof. unfold assume. repeat case_match; intros st; apply mk_refl. Qed.
  Lemma marked_guarded a b : marked (overflow_guarded_add a b).
  Proof. unfold overflow_guarded_add. repeat case_match; intros st; apply mk_refl. Qed.
  Lemma marked_unwrap {A E} (r : result A E) : marked (unwrap r).
  Proof. destruct r; intros st; apply mk_refl. Qed.
  Lemma marked_on_snd {A} (m : M W A) : hush m -> marked (on_snd m).
  Proof.
    intros Hm [v w]. unfold on_snd. simpl. destruct (Hm w) as (e&He&Hf).
    destruct (m w) as [r w']. split; [done|]. simpl in *. by exists e.
  Qed.

  Lemma hush_same {A} (m : M W A) : (forall w, events (snd (m w)) = events w) -> hush m.
  Proof. intros H w. exists []. rewrite app_nil_r. by rewrite H. Qed.
  Lemma hush_bind {A B} (m : M W A) (k : A -> M W B) :
    hush m -> (forall a, hush (k a)) -> hush (bind m k).
  Proof.
    intros Hm Hk w. unfold bind. destruct (Hm w) as (e&He&Hf).
    destruct (m w) as [[a|p| |u] w'] eqn:E; simpl in *; eauto.
    destruct (Hk a w') as (e'&He'&Hf'). exists (e ++ e'). rewrite He', He, app_assoc.
    split; [done|]. intros q. apply Forall_app; auto.
  Qed.
  Lemma hush_ret {A} (a : A) : hush (ret a). Proof. by apply hush_same. Qed.
  Lemma hush_undef {A} u : hush (undef u : M W A). Proof. by apply hush_same. Qed.
  Lemma hush_get_slots p : hush (get_slots (T := T) p).
  Proof. apply hush_same. intros w. unfold get_slots. by repeat case_match. Qed.
  Lemma hush_put_slots p s : hush (put_slots (T := T) p s).
  Proof. apply hush_same. intros w. unfold put_slots. by repeat case_match. Qed.
  Lemma hush_read_at p i : hush (read_at p i).
  Proof.
    unfold read_at. case_match; [apply hush_ret|]. apply hush_bind; [apply hush_get_slots|].
    intros s. destruct (slot_of s i) as [[]|]; first [apply hush_ret|apply hush_undef].
  Qed.
  Lemma hush_write_at p i x : hush (write_at p i x).
  Proof.
    unfold write_at. case_match; [apply hush_ret|]. apply hush_bind; [apply hush_get_slots|].
    intros s. case_match; first [apply hush_put_slots|apply hush_undef].
  Qed.
  Lemma hush_copy_at p i q j n : hush (copy_at p i q j n).
  Proof.
    unfold copy_at. case_match; [apply hush_ret|]. apply hush_bind.
    - unfold copy_out. apply hush_bind; [apply hush_get_slots|]. intros s.
      case_match; first [apply hush_ret|apply hush_undef].
    - intros l. unfold copy_in. apply hush_bind; [apply hush_get_slots|]. intros s.
      case_match; first [apply hush_put_slots|apply hush_undef].
  Qed.
  Lemma hush_copy_no p i q j n : hush (copy_nonoverlapping p i q j n).
  Proof.
    unfold copy_nonoverlapping. case_match; [apply hush_ret|]. apply hush_bind.
    - unfold assume. case_match; first [apply hush_ret|apply hush_undef].
    - intros _. apply hush_copy_at.
  Qed.
  Lemma hush_drop_val x : hush (drop_val (T := T) x).
  Proof. by apply hush_same. Qed.
  Lemma hush_drop_at p i : hush (drop_at p i).
  Proof.
    unfold drop_at. case_match; [apply hush_drop_val|]. case_match.
    - apply hush_bind; [apply hush_get_slots|]. intros s.
      destruct (slot_of s i) as [[]|]; first [apply hush_drop_val|apply hush_undef].
    - apply hush_same. intros w. by repeat case_match.
  Qed.
  Lemma hush_drop_loop p n : forall i, hush (drop_loop p i n).
  Proof.
    induction n as [|n IH]; intros i; simpl; [apply hush_ret|].
    apply hush_bind; [apply hush_drop_at|]. auto.
  Qed.
  Lemma hush_drop_slice p n : forall b i, hush (drop_slice_glue b p i n).
  Proof.
    induction n as [|n IH]; intros b i; simpl; [destruct b; by apply hush_same|].
    intros w. destruct (hush_drop_at p i w) as (e&He&Hf).
    destruct (drop_at p i w) as [[a|q| |u] w']; simpl in *; eauto.
    - destruct (IH b (i + 1) w') as (e'&He'&Hf'). exists (e ++ e'). rewrite He', He, app_assoc.
      split; [done|]. intros k. apply Forall_app; auto.
    - destruct b; simpl; eauto.
      destruct (IH true (i + 1) w') as (e'&He'&Hf'). exists (e ++ e'). rewrite He', He, app_assoc.
      split; [done|]. intros k. apply Forall_app; auto.
  Qed.
  Lemma hush_clone_val x : hush (clone_val (T := T) x).
  Proof. unfold clone_val. case_match; by apply hush_same. Qed.
  Lemma hush_read_list p n : forall i, hush (read_list p i n).
  Proof.
    induction n as [|n IH]; intros i; simpl; [apply hush_ret|].
    apply hush_bind; [apply hush_read_at|]. intros x. apply hush_bind; [auto|]. intros. apply hush_ret.
  Qed.

  Lemma marked_set_len n : marked (vec_set_len n).
  Proof.
    unfold vec_set_len. apply marked_bind_get. intros v w. unfold debug_assert.
    destruct e_checks; [destruct (n <=? vcap v)|]; (split; [done|]; exists []; simpl;
      rewrite app_nil_r; done).
  Qed.
  Lemma marked_realloc n : marked (vec_realloc n).
  Proof.
    unfold vec_realloc. apply marked_bind_get. intros v w. unfold bind at 1.
    destruct (on_snd (realloc_array (v_ptr v) n) (v, w)) as [r [v' w']] eqn:He.
    unfold on_snd in He. simpl in He.
    destruct (realloc_array (v_ptr v) n w) as [r1 w1] eqn:Hr. injection He as <- <- <-.
    assert (exists evs, events w1 = events w ++ evs /\ forall k, Forall (sel_ok k) evs) as (e&He&Hf).
    { revert Hr. unfold realloc_array, bind, umul.
      assert (forall s, match ga_realloc (sp_alloc (v_ptr v)) (sp_ptr (v_ptr v)) (layout_of (v_ptr v)) s w with
                        (_, w2) => exists evs, events w2 = events w ++ evs /\ forall k, Forall (sel_ok k) evs end)
        as Hg.
      { intros s. unfold ga_realloc. repeat case_match; simplify_eq; simpl;
          first [exists []; split; [by rewrite app_nil_r|by intros]
                |eexists [_]; split; [done|intros; repeat constructor]]. }
      assert (exists evs, events w = events w ++ evs /\ forall k, Forall (sel_ok k) evs) as Hsame.
      { exists []. rewrite app_nil_r. done. }
      destruct (_ <=? _); [|destruct e_checks]; simpl; unfold throw, ret;
        try (intros [= <- <-]; exact Hsame).
      - specialize (Hg (n * t_size)). destruct (ga_realloc _ _ _ _ w) as [[[b|]|p| |u] w2];
          intros [= <- <-]; done.
      - specialize (Hg ((n * t_size) mod two64)). destruct (ga_realloc _ _ _ _ w) as [[[b|]|p| |u] w2];
          intros [= <- <-]; done. }
    destruct r1 as [[p|e']|p| |u]; simpl; (split; [|by exists e]); try done.
    revert Hr. unfold realloc_array, bind, umul.
    destruct (_ <=? _); [|destruct e_checks]; simpl; unfold throw, ret; try done.
    - destruct (ga_realloc _ _ _ _ w) as [[[b|]|q| |u] w2]; intros [= <- <-]; done.
    - destruct (ga_realloc _ _ _ _ w) as [[[b|]|q| |u] w2]; intros [= <- <-]; done.
  Qed.

  (** A fresh array is requested with the given marker and keeps it. *)
  Lemma try_with_capacity_marker c m w r w' :
    c <> 0 -> t_size <> 0 -> vec_try_with_capacity_and_marker c m w = (r, w') ->
    (exists evs, events w' = events w ++ evs /\ Forall (sel_ok m) evs) /\
    (forall v, r = Ret (Ok v) -> vmarker v = m).
  Proof.
    intros Hc Ht. unfold vec_try_with_capacity_and_marker.
    destruct (N.eqb_spec c 0); [done|]. destruct (N.eqb_spec t_size 0); [done|]. simpl.
    unfold alloc_array_uninit. destruct (layout_array c) as [l|].
    2: { unfold bind, ret. intros [= <- <-]. split; [|done]. exists []. by rewrite app_nil_r. }
    unfold alloc_layout, alloc_for, bind, ret. destruct (cur_scope w) as [sc|].
    2: { intros [= <- <-]. split; [|done]. exists []. by rewrite app_nil_r. }
    unfold ga_alloc. simpl. destruct (l_size l =? 0).
    { intros [= <- <-]. split; [|done]. eexists [_]. split; [done|]. repeat constructor. }
    destruct (e_aok _ _); intros [= <- <-]; simpl.
    - split; [|intros v [= <-]; done]. eexists [_; _]. rewrite <-app_assoc. split; [done|].
      repeat constructor.
    - split; [|done]. eexists [_; _]. rewrite <-app_assoc. split; [done|]. repeat constructor.
  Qed.

  Lemma marked_grow_exact n v w :
    vcap v < n -> mk_step (v, w) (snd (vec_grow_exact n (v, w))).
  Proof.
    intros Hn. unfold vec_grow_exact. rewrite bind_get_fst.
    rewrite bind_debug_assert by lia. destruct (N.eqb_spec (vcap v) 0) as [Hc|Hc].
    2: { apply marked_realloc. }
    assert (t_size <> 0) as Ht.
    { intros Ht. unfold vcap in Hc. rewrite Ht in Hc. done. }
    unfold bind at 1, on_snd. simpl.
    destruct (vec_try_with_capacity_and_marker n (vmarker v) w) as [r w'] eqn:He.
    destruct (try_with_capacity_marker n (vmarker v) w r w') as [Hev Hm]; [lia|done|done|].
    destruct r as [[v'|e]|p| |u]; simpl; (split; [|done]); try done. simpl. by apply Hm.
  Qed.

  Lemma marked_try_reserve_exact n : marked (vec_try_reserve_exact n).
  Proof.
    unfold vec_try_reserve_exact. apply marked_bind_get. intros v w.
    unfold overflow_guarded_add. destruct (_ <=? _); [|apply mk_refl]. rewrite bind_ret.
    destruct (N.ltb_spec (vcap v) (v_len v + n)); [|apply mk_refl]. by apply marked_grow_exact.
  Qed.
  Lemma marked_try_reserve n : marked (vec_try_reserve n).
  Proof.
    unfold vec_try_reserve. apply marked_bind_get. intros v w.
    unfold overflow_guarded_add. destruct (_ <=? _); [|apply mk_refl]. rewrite bind_ret.
    destruct (N.ltb_spec (vcap v) (v_len v + n)); [|apply mk_refl].
    unfold vec_grow_amortized. rewrite bind_get_fst, bind_debug_assert by lia.
    unfold umul. repeat case_match; try apply mk_refl; rewrite bind_ret;
      apply marked_grow_exact; lia.
  Qed.

  Create HintDb mkdb.
  Hint Resolve marked_ret marked_throw marked_undef marked_get marked_uadd marked_usub marked_umul
    marked_debug_assert marked_assert marked_assume marked_guarded marked_unwrap marked_on_snd
    hush_ret hush_read_at hush_write_at hush_copy_at hush_copy_no hush_drop_val hush_drop_at
    hush_drop_loop hush_clone_val hush_read_list marked_set_len marked_try_reserve
    marked_try_reserve_exact : mkdb.
  Ltac mm := repeat first
    [ match goal with |- forall _, _ => intro end
    | match goal with
      | |- marked (bind _ _) => apply marked_bind
      | |- marked (on_unwind _ _) => apply marked_on_unwind
      | |- marked (finally _ _) => apply marked_finally
      end
    | solve [auto with mkdb]
    | match goal with
      | |- marked (if ?b then _ else _) => destruct b
      | |- marked (match ?b with _ => _ end) => destruct b
      end ].

  Lemma marked_reserve_exact n : marked (vec_reserve_exact n).
  Proof. unfold vec_reserve_exact. mm. Qed.
  Hint Resolve marked_reserve_exact : mkdb.
  Lemma marked_reserve n : marked (vec_reserve n).
  Proof. unfold vec_reserve. mm. Qed.
  Lemma marked_push x : marked (vec_push x).
  Proof. unfold vec_push. mm. Qed.
  Hint Resolve marked_push marked_reserve : mkdb.
  Lemma marked_pop : marked vec_pop.
  Proof. unfold vec_pop. mm. Qed.
  Hint Resolve marked_pop : mkdb.
  Lemma marked_shrink n : marked (vec_shrink n).
  Proof.
    unfold vec_shrink. apply marked_bind; [mm|]. intros v. mm. apply marked_realloc.
  Qed.
  Hint Resolve marked_shrink : mkdb.
  Lemma marked_truncate n : marked (vec_truncate n).
  Proof. unfold vec_truncate. mm. apply marked_on_snd, hush_drop_slice. Qed.
  Hint Resolve marked_truncate : mkdb.
  Lemma marked_push_all it : marked (vec_push_all it).
  Proof. induction it as [|[x|] it IH]; simpl; mm. Qed.
  Lemma marked_push_clones l : marked (vec_push_clones l).
  Proof. induction l as [|x l IH]; simpl; mm. Qed.
  Hint Resolve marked_push_all marked_push_clones : mkdb.
  Lemma marked_vx_push x : marked (vx_push x). Proof. apply marked_push. Qed.
  Lemma marked_vx_truncate n : marked (vx_truncate n). Proof. apply marked_truncate. Qed.
  Lemma marked_vx_reserve n : marked (vx_reserve_exact n). Proof. apply marked_reserve_exact. Qed.
  Hint Resolve marked_vx_push marked_vx_truncate marked_vx_reserve : mkdb.
  Lemma marked_push_next (next : nat -> MV T) n : (forall k, marked (next k)) ->
    forall k, marked (push_next next k n).
  Proof. intros Hn. induction n as [|n IH]; intros k; simpl; mm. Qed.
  Lemma marked_do_resize (next last : nat -> MV T) cl n :
    (forall k, marked (next k)) -> (forall k, marked (last k)) -> marked cl ->
    marked (do_resize next last cl n).
  Proof.
    intros H1 H2 H3. unfold do_resize, vx_get_len. mm. apply marked_push_next. done.
  Qed.

  (** Every call except [append] (which creates a vector of its own). *)
  Lemma marked_vexec op : z_call op -> marked (vexec op).
  Proof.
    intros Hc. destruct op as [x| |i x|i|i|n| |l|l|it h|n x|n g|n|n|n|n|m| |i|i x|i| | |sc];
      simpl in Hc |- *; try done.
    - mm.
    - mm.
    - unfold vec_insert. mm.
    - unfold vec_remove. mm.
    - unfold vec_swap_remove. mm.
    - mm.
    - unfold vec_clear. mm.
    - unfold vec_extend_from_slice. mm.
    - unfold vec_extend_from_iter. mm.
    - apply marked_bind; [|mm]. unfold resize_val. apply marked_do_resize; mm.
    - apply marked_bind; [|mm]. unfold resize_fn, call_fn. apply marked_do_resize; mm.
    - mm.
    - mm.
    - mm.
    - mm.
    - unfold vec_shrink_to. mm.
    - unfold vec_shrink_to_fit. mm.
    - unfold vec_index. mm.
    - unfold vec_assign. mm.
    - unfold vec_get. mm.
    - unfold vec_as_slice. mm.
    - mm.
    - apply marked_bind; [|mm]. intros [v w]. split; [done|]. exists []. simpl. by rewrite app_nil_r.
  Qed.

  Lemma marked_vrun ops : Forall z_call ops -> forall st, mk_step st (snd (vrun ops st)).
  Proof.
    induction 1 as [|op ops H1 H2 IH]; intros st; simpl; [apply mk_refl|].
    pose proof (marked_vexec op H1 st) as H. destruct (vexec op st) as [[a|p| |u] st']; try done.
    all: specialize (IH st'); destruct (vrun ops st') as [os st'']; simpl in *; by eapply mk_trans.
  Qed.
End marker.
