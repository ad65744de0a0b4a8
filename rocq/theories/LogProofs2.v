(** The allocator log of small vectors and strings agrees with the heap. *)
From Verif Require Export LogProofs SmallRun StrRun.
From Coq Require Import ZifyBool ZifyNat ZifyN.

Section log2.
  Context {EN : Env} {T : Type} {EL : Elem T}.
  Notation W := (world T).
  Context (m0 : owners) (E0 : list aevent).
  Notation pres := (pres m0 E0).
  Notation logged := (logged m0 E0).

  Hint Resolve pres_ret pres_throw pres_undef pres_uadd pres_usub pres_umul pres_debug_assert
    pres_assert pres_assume pres_guarded pres_unwrap pres_get_fst pres_put_fst pres_alloc_for
    pres_ga_alloc pres_ga_dealloc pres_ga_realloc pres_get_slots pres_put_slots pres_drop_val
    pres_read_at pres_write_at pres_copy_in pres_copy_at pres_copy_no pres_drop_at pres_drop_loop pres_drop_slice
    pres_drop_vals pres_read_list pres_clone_val pres_sp_dealloc pres_sp_drop pres_with_marker pres_new
    pres_try_with_capacity pres_with_capacity pres_set_len pres_as_slice pres_try_reserve_exact pres_try_reserve
    pres_reserve_exact pres_reserve pres_shrink_to_fit pres_shrink_to pres_clear pres_push pres_pop pres_vec_drop
    pres_vec_drop_val pres_append pres_extend_from_slice pres_extend_from_iter pres_swap_remove pres_insert
    pres_truncate pres_remove pres_index pres_assign pres_get pres_from_array : pres.
  Ltac pp := repeat first
    [ solve [auto with pres]
    | apply pres_bind; [|intros ?]
    | apply pres_on_unwind | apply pres_finally
    | apply pres_on_snd
    | apply pres_with_local
    | match goal with |- LogProofs.pres _ _ _ (if ?c then _ else _) => destruct c end
    | match goal with |- LogProofs.pres _ _ _ (match ?c with _ => _ end) => destruct c end
    | match goal with |- LogProofs.pres _ _ _ (let '(_, _) := ?c in _) => destruct c end ].

  Section small.
    Context (Cap : N).
    Lemma pres_sk_read i : pres snd (sk_read (T := T) i).
    Proof. unfold sk_read. pp. Qed.
    Lemma pres_sk_write i x : pres snd (sk_write (T := T) i x).
    Proof. unfold sk_write. pp. Qed.
    Lemma pres_sk_drop_at i : pres snd (sk_drop_at (T := T) i).
    Proof. unfold sk_drop_at. pp. Qed.
    Lemma pres_sk_copy i j n : pres snd (sk_copy (T := T) i j n).
    Proof. unfold sk_copy. pp. Qed.
    Hint Resolve pres_sk_read pres_sk_write pres_sk_drop_at pres_sk_copy : pres.
    Lemma pres_sk_copy_no i j n : pres snd (sk_copy_no (T := T) i j n).
    Proof. unfold sk_copy_no. pp. Qed.
    Lemma pres_sk_drop_range n : forall i, pres snd (sk_drop_range (T := T) i n).
    Proof. induction n; intros i; simpl; pp. Qed.
    Lemma pres_sk_read_list n : forall i, pres snd (sk_read_list (T := T) i n).
    Proof. induction n; intros i; simpl; pp. Qed.
    Lemma pres_sk_set_len n : pres snd (sk_set_len (T := T) Cap n).
    Proof. unfold sk_set_len. pp. Qed.
    Hint Resolve pres_sk_copy_no pres_sk_drop_range pres_sk_read_list pres_sk_set_len : pres.
    Lemma pres_sk_as_slice : pres snd (sk_as_slice (T := T)).
    Proof. unfold sk_as_slice. pp. Qed.
    Lemma pres_sk_clear : pres snd (sk_clear (T := T) Cap).
    Proof. unfold sk_clear. pp. Qed.
    Lemma pres_sk_push x : pres snd (sk_unchecked_push (T := T) Cap x).
    Proof. unfold sk_unchecked_push. pp. Qed.
    Lemma pres_sk_pop : pres snd (sk_pop (T := T) Cap).
    Proof. unfold sk_pop. pp. Qed.
    Lemma pres_sk_insert i x : pres snd (sk_unchecked_insert (T := T) Cap i x).
    Proof. unfold sk_unchecked_insert. pp. Qed.
    Lemma pres_sk_remove i : pres snd (sk_remove (T := T) Cap i).
    Proof. unfold sk_remove, sk_unchecked_remove. pp. Qed.
    Lemma pres_sk_truncate n : pres snd (sk_truncate (T := T) Cap n).
    Proof. unfold sk_truncate. pp. Qed.
    Lemma pres_sk_swap_remove i : pres snd (sk_swap_remove (T := T) Cap i).
    Proof. unfold sk_swap_remove. pp. Qed.
    Lemma pres_sk_drop : pres snd (sk_drop (T := T)).
    Proof. unfold sk_drop. pp. Qed.
    Hint Resolve pres_sk_as_slice pres_sk_clear pres_sk_push pres_sk_pop pres_sk_insert pres_sk_remove
      pres_sk_truncate pres_sk_swap_remove pres_sk_drop : pres.

    Lemma pres_on_stack {A} k (m : M (stackvec T * W) A) : pres snd m -> pres snd (on_stack k m).
    Proof.
      intros Hm [s w] Hs. unfold on_stack. simpl in *. specialize (Hm (k, w) Hs). by destruct (m (k, w)) as [r [k' w']].
    Qed.
    Lemma pres_on_heap {A} v (m : M (vec * W) A) : pres snd m -> pres snd (on_heap v m).
    Proof.
      intros Hm [s w] Hs. unfold on_heap. simpl in *. specialize (Hm (v, w) Hs). by destruct (m (v, w)) as [r [v' w']].
    Qed.
    Lemma pres_redirect {A} (mk : M (stackvec T * W) A) mv : pres snd mk -> pres snd mv -> pres snd (redirect mk mv).
    Proof. intros. unfold redirect. pp; [by apply pres_on_stack|by apply pres_on_heap]. Qed.
    Hint Resolve pres_on_heap pres_redirect : pres.

    Lemma pres_sv_with_capacity c m : pres id (sv_try_with_capacity_and_marker (T := T) Cap c m).
    Proof. unfold sv_try_with_capacity_and_marker. pp. Qed.
    Lemma pres_sv_as_slice : pres snd (sv_as_slice (T := T)).
    Proof. unfold sv_as_slice. apply pres_redirect; pp. Qed.
    Lemma pres_sv_read i : pres snd (sv_read (T := T) i).
    Proof. unfold sv_read. apply pres_redirect; pp. Qed.
    Lemma pres_sv_write i x : pres snd (sv_write (T := T) i x).
    Proof. unfold sv_write. apply pres_redirect; pp. Qed.
    Lemma pres_sv_set_len n : pres snd (sv_set_len (T := T) Cap n).
    Proof. unfold sv_set_len. pp. Qed.
    Hint Resolve pres_sv_with_capacity pres_sv_as_slice pres_sv_read pres_sv_write pres_sv_set_len : pres.
    Lemma pres_sv_move n : pres snd (sv_try_move_to_heap_and_reserve_exact (T := T) n).
    Proof. unfold sv_try_move_to_heap_and_reserve_exact. pp. Qed.
    Hint Resolve pres_sv_move : pres.
    Lemma pres_sv_move_to_heap : pres snd (sv_move_to_heap (T := T)).
    Proof. unfold sv_move_to_heap. pp. Qed.
    Lemma pres_sv_try_reserve_exact n : pres snd (sv_try_reserve_exact (T := T) Cap n).
    Proof. unfold sv_try_reserve_exact. pp. Qed.
    Hint Resolve pres_sv_move_to_heap pres_sv_try_reserve_exact : pres.
    Lemma pres_sv_try_reserve n : pres snd (sv_try_reserve (T := T) Cap n).
    Proof. unfold sv_try_reserve. pp. Qed.
    Hint Resolve pres_sv_try_reserve : pres.
    Lemma pres_sv_reserve n : pres snd (sv_reserve (T := T) Cap n).
    Proof. unfold sv_reserve. pp. Qed.
    Lemma pres_sv_reserve_exact n : pres snd (sv_reserve_exact (T := T) Cap n).
    Proof. unfold sv_reserve_exact. pp. Qed.
    Lemma pres_dealloc_without_drop v : pres id (vec_dealloc_without_drop (T := T) v).
    Proof. unfold vec_dealloc_without_drop. pp. Qed.
    Hint Resolve pres_sv_reserve pres_sv_reserve_exact pres_dealloc_without_drop : pres.
    Lemma pres_copy_out p i n : pres id (copy_out (T := T) p i n).
    Proof. unfold copy_out. pp. Qed.
    Hint Resolve pres_copy_out : pres.
    Lemma pres_sv_to_stack : pres snd (sv_try_move_to_stack (T := T) Cap).
    Proof. unfold sv_try_move_to_stack. pp. Qed.
    Lemma pres_sv_push x : pres snd (sv_push (T := T) Cap x).
    Proof. unfold sv_push. pp. Qed.
    Lemma pres_sv_insert i x : pres snd (sv_insert (T := T) Cap i x).
    Proof. unfold sv_insert. pp. Qed.
    Lemma pres_store_copy a i b j n : pres id (store_copy (T := T) a i b j n).
    Proof. unfold store_copy, store_out, store_in. pp. Qed.
    Lemma pres_sv_drop : pres snd (sv_drop (T := T)).
    Proof. unfold sv_drop. pp. Qed.
    Hint Resolve pres_sv_to_stack pres_sv_push pres_sv_insert pres_store_copy pres_sv_drop : pres.
    Lemma pres_sv_drop_val s : pres id (sv_drop_val (T := T) s).
    Proof.
      intros w Hs. unfold sv_drop_val. pose proof (pres_sv_drop (s, w) Hs) as H. by destruct (sv_drop (s, w)) as [r [s' w']].
    Qed.
    Hint Resolve pres_sv_drop_val : pres.
    Lemma pres_sv_append o : pres snd (sv_append (T := T) Cap o).
    Proof. unfold sv_append. pp. Qed.
    Lemma pres_sv_push_clones l : pres snd (sv_push_clones (T := T) Cap l).
    Proof. induction l; simpl; pp. Qed.
    Lemma pres_sv_push_all it : pres snd (sv_push_all (T := T) Cap it).
    Proof. induction it as [|[x|] it]; simpl; pp. Qed.
    Hint Resolve pres_sv_append pres_sv_push_clones pres_sv_push_all : pres.
    Lemma pres_sv_extend_from_slice l : pres snd (sv_extend_from_slice (T := T) Cap l).
    Proof. unfold sv_extend_from_slice. pp. Qed.
    Lemma pres_sv_extend it h : pres snd (sv_extend (T := T) Cap it h).
    Proof. unfold sv_extend. pp. Qed.
    Hint Resolve pres_sv_extend_from_slice pres_sv_extend : pres.
    Lemma pres_sv_from_iter it h : pres id (sv_from_iter (T := T) Cap it h).
    Proof. unfold sv_from_iter. pp. Qed.
    Hint Resolve pres_sv_from_iter : pres.

    Lemma pres_sexec op : pres snd (sexec (T := T) Cap op).
    Proof.
      destruct op; cbn [sexec]; unfold sv_pop, sv_remove, sv_swap_remove, sv_truncate, sv_clear, sv_shrink_to,
        sv_shrink_to_fit, sv_index, sv_assign, sv_get; pp.
      intros [v w] Hs. by eapply logged_same.
    Qed.
    Lemma logged_srun ops : forall st, logged (snd st) -> logged (snd (snd (srun (T := T) Cap ops st))).
    Proof.
      induction ops as [|op ops IH]; intros st Hs; simpl; [done|].
      pose proof (pres_sexec op st Hs) as H. destruct (sexec Cap op st) as [[a|p| |u] st']; try done.
      all: specialize (IH st' H); by destruct (srun Cap ops st').
    Qed.
  End small.
End log2.

Section log_str.
  Context {EN : Env}.
  Local Existing Instance u8.
  Notation W := (world N).
  Context (m0 : owners) (E0 : list aevent).
  Notation pres := (pres m0 E0).
  Notation logged := (logged m0 E0).

  Hint Resolve pres_ret pres_throw pres_undef pres_uadd pres_usub pres_umul pres_debug_assert
    pres_assert pres_assume pres_guarded pres_unwrap pres_get_fst pres_put_fst
    pres_copy_in pres_copy_at pres_copy_no pres_read_list pres_with_marker pres_new
    pres_try_with_capacity pres_with_capacity pres_set_len pres_as_slice pres_try_reserve_exact pres_try_reserve
    pres_reserve_exact pres_reserve pres_shrink_to_fit pres_shrink_to pres_clear pres_push pres_pop pres_vec_drop
    pres_vec_drop_val pres_extend_from_slice pres_truncate pres_vexec : pres.
  Ltac pp := repeat first
    [ solve [auto with pres]
    | apply pres_bind; [|intros ?]
    | apply pres_on_unwind | apply pres_finally
    | apply pres_on_snd
    | apply pres_with_local
    | match goal with |- LogProofs.pres _ _ _ (if ?c then _ else _) => destruct c end
    | match goal with |- LogProofs.pres _ _ _ (match ?c with _ => _ end) => destruct c end
    | match goal with |- LogProofs.pres _ _ _ (let '(_, _) := ?c in _) => destruct c end ].

  Lemma pres_str_bytes : pres snd str_bytes.
  Proof. unfold str_bytes. pp. Qed.
  Lemma pres_decoded {S} (pr : S -> W) d : pres pr (decoded_m d).
  Proof. unfold decoded_m. pp. Qed.
  Lemma pres_uninit : pres snd uninit_bits.
  Proof. unfold uninit_bits. pp. Qed.
  Hint Resolve pres_str_bytes pres_decoded pres_uninit : pres.
  Lemma pres_str_push c : pres snd (str_push c).
  Proof. unfold str_push. pp. Qed.
  Lemma pres_str_pop : pres snd str_pop.
  Proof. unfold str_pop. pp. Qed.
  Lemma pres_str_push_str s : pres snd (str_push_str s).
  Proof. unfold str_push_str. pp. Qed.
  Lemma pres_str_range bs lo hi : pres snd (str_range bs lo hi).
  Proof. unfold str_range. pp. Qed.
  Hint Resolve pres_str_push pres_str_pop pres_str_push_str pres_str_range : pres.
  Lemma pres_str_remove i : pres snd (str_remove i).
  Proof. unfold str_remove. pp. Qed.
  Lemma pres_str_insert_bytes i bs : pres snd (str_insert_bytes i bs).
  Proof. unfold str_insert_bytes. pp. Qed.
  Hint Resolve pres_str_remove pres_str_insert_bytes : pres.
  Lemma pres_split_off i : pres snd (vec_split_off (T := N) i).
  Proof. unfold vec_split_off. pp. Qed.
  Hint Resolve pres_split_off : pres.
  Lemma pres_set_len_on_drop i d : pres snd (set_len_on_drop i d).
  Proof. unfold set_len_on_drop. pp. Qed.
  Hint Resolve pres_set_len_on_drop : pres.
  Lemma pres_str_retain_loop {St} (f : St -> N -> St * option bool) fuel : forall st len i d,
    pres snd (str_retain_loop f st len i d fuel).
  Proof. induction fuel; intros st len i d; simpl; pp. Qed.
  Hint Resolve pres_str_retain_loop : pres.
  Lemma pres_str_push_chars it : pres snd (str_push_chars it).
  Proof. induction it as [|[c|] it]; simpl; pp. Qed.
  Lemma pres_str_extend_strs it : pres snd (str_extend_strs it).
  Proof. induction it as [|[c|] it]; simpl; pp. Qed.
  Lemma pres_push_items {I} (next : I -> M W vec) dr it :
    (forall i, pres id (next i)) -> (forall l, pres id (dr l)) -> pres snd (push_items next dr it).
  Proof. intros. induction it; simpl; pp. Qed.
  Hint Resolve pres_str_push_chars pres_str_extend_strs pres_push_items : pres.
  Lemma pres_str_extend_items {I} (next : I -> M W vec) dr it :
    (forall i, pres id (next i)) -> (forall l, pres id (dr l)) -> pres snd (str_extend_items next dr it).
  Proof. intros. unfold str_extend_items. pp. Qed.
  Lemma pres_str_build s : pres id (str_build s).
  Proof. unfold str_build, str_new. pp. Qed.
  Hint Resolve pres_str_build : pres.

  Lemma pres_texec op : pres snd (texec op).
  Proof.
    destruct op; cbn [texec]; unfold str_clear, str_insert, str_insert_str, str_truncate, str_retain, str_index,
      str_map_bytes, str_extend_chars, str_split_off; pp.
    - intros [v w] Hs. by eapply logged_same.
  Qed.
  Lemma logged_trun ops : forall st, logged (snd st) -> logged (snd (snd (trun ops st))).
  Proof.
    induction ops as [|op ops IH]; intros st Hs; simpl; [done|].
    pose proof (pres_texec op st Hs) as H. destruct (texec op st) as [[a|p| |u] st']; try done.
    all: specialize (IH st' H); by destruct (trun ops st').
  Qed.
End log_str.

Section log_make.
  Context {EN : Env}.
  Local Existing Instance u8.
  Context (m0 : owners) (E0 : list aevent).
  Notation pres := (pres m0 E0).
  Hint Resolve pres_str_push pres_vec_drop pres_vec_drop_val pres_with_capacity pres_ret pres_as_slice : pres.
  Lemma pres_from_utf8 v : pres id (str_from_utf8 v).
  Proof.
    unfold str_from_utf8. apply pres_bind; [auto with pres|]. intros bs. destruct (utf8_valid bs); [auto with pres|].
    apply pres_bind; auto with pres.
  Qed.
  Lemma pres_push_decoded l : pres snd (push_decoded l).
  Proof. induction l as [|[c|] l IH]; simpl; [auto with pres|apply pres_bind; auto with pres|auto with pres]. Qed.
  Hint Resolve pres_push_decoded : pres.
  Lemma pres_from_utf16 us : pres id (str_from_utf16 us).
  Proof.
    unfold str_from_utf16, str_with_capacity. apply pres_bind; [auto with pres|]. intros v.
    apply pres_bind; [apply pres_with_local; auto with pres|]. intros [[] v']; simpl; [auto with pres|].
    apply pres_bind; auto with pres.
  Qed.
End log_make.
