(** Symbolic execution of the [Rc] model and its refinement of the handle specification. *)
From Verif Require Export SpecRc MemProofs.
From Coq Require Import ZifyBool ZifyNat ZifyN.

Section rc_exec.
  Context {EN : Env} {T : Type} {EL : Elem T}.
  Local Existing Instance box_elem.
  Notation W := (world (rcbox T)).
  Notation St := (list T * W)%type.
  Implicit Types (w : W) (b : N) (p : sptr) (rb : rcbox T) (d : list T).

  Lemma box_size_pos : 0 < @t_size (rcbox T) box_elem.
  Proof.
    simpl. pose proof (box_align_pos EL) as H. set (a := box_align EL) in *.
    assert (1 <= (16 + @t_size T EL + a - 1) / a); [|nia].
    apply N.div_le_lower_bound; lia.
  Qed.

  Definition box_at w b rb : Prop := slots_at w (Blk b) [Some rb].
  Definition setb b rb w : W := set_slots (Blk b) [Some rb] w.

  Lemma box_at_fun w b rb rb' : box_at w b rb -> box_at w b rb' -> rb = rb'.
  Proof. intros (blk&H1&H2) (blk'&H3&H4). congruence. Qed.
  Lemma box_at_setb w b rb rb' : box_at w b rb -> box_at (setb b rb' w) b rb'.
  Proof. apply slots_at_set. Qed.
  Lemma box_at_setb_ne w b c rb rb' : b <> c -> box_at w c rb -> box_at (setb b rb' w) c rb.
  Proof.
    intros Hne (blk&H1&H2). unfold setb. simpl. destruct (heap w !! b); simpl; [|by eexists].
    exists blk. simpl. by rewrite lookup_insert_ne.
  Qed.
  Lemma setb_inv w b c rb rb' : box_at w b rb' -> box_at (setb b rb w) c rb' -> b <> c -> box_at w c rb'.
  Proof.
    intros (blk&H1&H2) (blk'&H3&H4) Hne. unfold setb in *. simpl in *. rewrite H1 in H3. simpl in H3.
    rewrite lookup_insert_ne in H3 by done. by eexists.
  Qed.
  Lemma setb_setb w b rb rb' : setb b rb' (setb b rb w) = setb b rb' w.
  Proof. apply set_slots_twice. Qed.
  Lemma setb_next b rb w : next_id (setb b rb w) = next_id w.
  Proof. unfold setb; simpl. by destruct (heap w !! b). Qed.
  Lemma setb_cur b rb w : cur_scope (setb b rb w) = cur_scope w.
  Proof. unfold setb; simpl. by destruct (heap w !! b). Qed.
  Lemma setb_ncalls b rb w : ncalls (setb b rb w) = ncalls w.
  Proof. unfold setb; simpl. by destruct (heap w !! b). Qed.
  Lemma setb_events b rb w : events (setb b rb w) = events w.
  Proof. unfold setb; simpl. by destruct (heap w !! b). Qed.
  Lemma setb_dom b rb w c : is_Some (heap (setb b rb w) !! c) <-> is_Some (heap w !! c).
  Proof.
    unfold setb; simpl. destruct (heap w !! b) eqn:E; simpl; [|done].
    destruct (decide (b = c)) as [->|]; [rewrite lookup_insert, E|rewrite lookup_insert_ne by done];
      split; eauto.
  Qed.
  Lemma setb_fresh b rb w : fresh_ids w -> fresh_ids (setb b rb w).
  Proof.
    intros H c Hc. rewrite setb_next in Hc. specialize (H c Hc).
    destruct (heap (setb b rb w) !! c) eqn:E; [|done].
    assert (is_Some (heap w !! c)) as [? ?] by (apply (setb_dom b rb); eauto). congruence.
  Qed.

  Lemma rc_inner_ok p b rb d w :
    sp_ptr p = Blk b -> box_at w b rb -> rc_inner p (d, w) = (Ret rb, (d, w)).
  Proof.
    intros Hp Hb. unfold rc_inner, sp_deref. apply on_snd_Ret. rewrite Hp.
    by apply (read_at_slots w (Blk b) [Some rb] 0 rb box_size_pos).
  Qed.
  Lemma rc_set_ok p b rb rb' d w :
    sp_ptr p = Blk b -> box_at w b rb -> rc_set p rb' (d, w) = (Ret tt, (d, setb b rb' w)).
  Proof.
    intros Hp Hb. unfold rc_set, sp_assign. apply on_snd_Ret. rewrite Hp.
    by apply (write_at_slots w (Blk b) [Some rb] 0 rb' box_size_pos).
  Qed.

  Lemma rc_strong_count_ok p b rb d w :
    sp_ptr p = Blk b -> box_at w b rb -> rc_strong_count p (d, w) = (Ret (r_strong rb), (d, w)).
  Proof. intros Hp Hb. unfold rc_strong_count. by erewrite bind_Ret by (by eapply rc_inner_ok). Qed.
  Lemma rc_weak_count_ok p b rb d w :
    sp_ptr p = Blk b -> box_at w b rb -> rc_weak_count p (d, w) = (Ret (r_weak rb), (d, w)).
  Proof. intros Hp Hb. unfold rc_weak_count. by erewrite bind_Ret by (by eapply rc_inner_ok). Qed.

  Lemma inc_strong_ok p b rb d w :
    sp_ptr p = Blk b -> box_at w b rb -> r_strong rb + 1 <= usize_max ->
    inc_strong p (d, w) =
      (Ret (r_strong rb), (d, setb b (RcBox (r_strong rb + 1) (r_weak rb) (r_val rb)) w)).
  Proof.
    intros Hp Hb Ho. unfold inc_strong. erewrite bind_Ret by (by eapply rc_inner_ok).
    rewrite bind_uadd by done. by erewrite bind_Ret by (by eapply rc_set_ok).
  Qed.
  Lemma inc_weak_ok p b rb d w :
    sp_ptr p = Blk b -> box_at w b rb -> r_weak rb + 1 <= usize_max ->
    inc_weak p (d, w) =
      (Ret (r_weak rb), (d, setb b (RcBox (r_strong rb) (r_weak rb + 1) (r_val rb)) w)).
  Proof.
    intros Hp Hb Ho. unfold inc_weak. erewrite bind_Ret by (by eapply rc_inner_ok).
    rewrite bind_uadd by done. by erewrite bind_Ret by (by eapply rc_set_ok).
  Qed.
  Lemma dec_strong_ok p b rb d w :
    sp_ptr p = Blk b -> box_at w b rb -> 1 <= r_strong rb ->
    dec_strong p (d, w) =
      (Ret (r_strong rb), (d, setb b (RcBox (r_strong rb - 1) (r_weak rb) (r_val rb)) w)).
  Proof.
    intros Hp Hb Ho. unfold dec_strong. erewrite bind_Ret by (by eapply rc_inner_ok).
    rewrite bind_usub by done. by erewrite bind_Ret by (by eapply rc_set_ok).
  Qed.
  Lemma dec_weak_ok p b rb d w :
    sp_ptr p = Blk b -> box_at w b rb -> 1 <= r_weak rb ->
    dec_weak p (d, w) =
      (Ret (r_weak rb), (d, setb b (RcBox (r_strong rb) (r_weak rb - 1) (r_val rb)) w)).
  Proof.
    intros Hp Hb Ho. unfold dec_weak. erewrite bind_Ret by (by eapply rc_inner_ok).
    rewrite bind_usub by done. by erewrite bind_Ret by (by eapply rc_set_ok).
  Qed.
  (** Unconditional versions: some new strong count, or an arithmetic panic. *)
  Lemma inc_strong_any p b rb d w :
    sp_ptr p = Blk b -> box_at w b rb ->
    (exists n, inc_strong p (d, w) =
       (Ret (r_strong rb), (d, setb b (RcBox n (r_weak rb) (r_val rb)) w))) \/
    inc_strong p (d, w) = (Panic PArith, (d, w)).
  Proof.
    intros Hp Hb. unfold inc_strong. erewrite bind_Ret by (by eapply rc_inner_ok).
    unfold uadd. destruct (_ <=? _); [|destruct e_checks].
    - left. eexists. rewrite bind_ret. by erewrite bind_Ret by (by eapply rc_set_ok).
    - by right.
    - left. eexists. rewrite bind_ret. by erewrite bind_Ret by (by eapply rc_set_ok).
  Qed.
  Lemma dec_strong_any p b rb d w :
    sp_ptr p = Blk b -> box_at w b rb ->
    (exists n, dec_strong p (d, w) =
       (Ret (r_strong rb), (d, setb b (RcBox n (r_weak rb) (r_val rb)) w))) \/
    dec_strong p (d, w) = (Panic PArith, (d, w)).
  Proof.
    intros Hp Hb. unfold dec_strong. erewrite bind_Ret by (by eapply rc_inner_ok).
    unfold usub. destruct (_ <=? _); [|destruct e_checks].
    - left. eexists. rewrite bind_ret. by erewrite bind_Ret by (by eapply rc_set_ok).
    - by right.
    - left. eexists. rewrite bind_ret. by erewrite bind_Ret by (by eapply rc_set_ok).
  Qed.

  (** Dropping a handle: a count of one stays, a larger one goes down; nothing else happens. *)
  Definition dropped (n : N) : N := if n =? 1 then 1 else n - 1.
  Lemma rc_drop_ok p b rb d w :
    sp_ptr p = Blk b -> box_at w b rb -> 1 <= r_strong rb ->
    rc_drop p (d, w) =
      (Ret tt, (d, setb b (RcBox (dropped (r_strong rb)) (r_weak rb) (r_val rb)) w)).
  Proof.
    intros Hp Hb Ho. unfold rc_drop, dropped. erewrite bind_Ret by (by eapply rc_strong_count_ok).
    destruct (N.eqb_spec (r_strong rb) 1) as [E|E].
    - rewrite bind_assoc. erewrite bind_Ret by (by eapply rc_inner_ok).
      unfold drop_manually at 1. rewrite bind_ret.
      erewrite bind_Ret by (by eapply rc_strong_count_ok).
      erewrite bind_Ret by (by eapply rc_weak_count_ok).
      unfold setb. rewrite <-E. replace (RcBox _ _ _) with rb by (by destruct rb).
      rewrite set_slots_same by done. by destruct (_ && _).
    - rewrite bind_assoc. erewrite bind_Ret by (by eapply dec_strong_ok). rewrite bind_ret.
      erewrite bind_Ret by (eapply rc_strong_count_ok; [done|by eapply box_at_setb]).
      erewrite bind_Ret by (eapply rc_weak_count_ok; [done|by eapply box_at_setb]).
      by destruct (_ && _).
  Qed.
  Lemma rc_drop_any p b rb d w :
    sp_ptr p = Blk b -> box_at w b rb ->
    exists n, rc_drop p (d, w) = (Ret tt, (d, setb b (RcBox n (r_weak rb) (r_val rb)) w)) \/
      rc_drop p (d, w) = (Panic PArith, (d, setb b (RcBox n (r_weak rb) (r_val rb)) w)).
  Proof.
    intros Hp Hb. assert (Hs : setb b (RcBox (r_strong rb) (r_weak rb) (r_val rb)) w = w).
    { unfold setb. replace (RcBox _ _ _) with rb by (by destruct rb). by rewrite set_slots_same. }
    unfold rc_drop. erewrite bind_Ret by (by eapply rc_strong_count_ok).
    destruct (N.eqb_spec (r_strong rb) 1) as [E|E].
    - exists (r_strong rb). left.
      rewrite bind_assoc. erewrite bind_Ret by (by eapply rc_inner_ok).
      unfold drop_manually at 1. rewrite bind_ret.
      erewrite bind_Ret by (by eapply rc_strong_count_ok).
      erewrite bind_Ret by (by eapply rc_weak_count_ok). rewrite Hs. by destruct (_ && _).
    - destruct (dec_strong_any p b rb d w Hp Hb) as [[n H]|H].
      + exists n. left. rewrite bind_assoc. erewrite bind_Ret by done. rewrite bind_ret.
        erewrite bind_Ret by (eapply rc_strong_count_ok; [done|by eapply box_at_setb]).
        erewrite bind_Ret by (eapply rc_weak_count_ok; [done|by eapply box_at_setb]).
        by destruct (_ && _).
      + exists (r_strong rb). right. erewrite bind_Panic; [by rewrite Hs|].
        by erewrite bind_Panic.
  Qed.

  Lemma rc_replace_ok p b n k x y d w :
    sp_ptr p = Blk b -> box_at w b (RcBox n k (Val x)) ->
    rc_replace p y (d, w) = (Ret x, (d, setb b (RcBox n k (Val y)) w)).
  Proof.
    intros Hp Hb. unfold rc_replace. erewrite bind_Ret by (by eapply rc_inner_ok). simpl.
    rewrite bind_ret. by erewrite bind_Ret by (by eapply rc_set_ok).
  Qed.
  Lemma rc_replace_moved p b n k y d w :
    sp_ptr p = Blk b -> box_at w b (RcBox n k Moved) ->
    rc_replace p y (d, w) = (UB UseAfterMove, (d, w)).
  Proof.
    intros Hp Hb. unfold rc_replace. by erewrite bind_Ret by (by eapply rc_inner_ok).
  Qed.
  Lemma rc_as_ref_ok p b n k x d w :
    sp_ptr p = Blk b -> box_at w b (RcBox n k (Val x)) -> rc_as_ref p (d, w) = (Ret x, (d, w)).
  Proof. intros Hp Hb. unfold rc_as_ref. by erewrite bind_Ret by (by eapply rc_inner_ok). Qed.
  Lemma rc_as_ref_moved p b n k d w :
    sp_ptr p = Blk b -> box_at w b (RcBox n k Moved) ->
    rc_as_ref p (d, w) = (UB UseAfterMove, (d, w)).
  Proof. intros Hp Hb. unfold rc_as_ref. by erewrite bind_Ret by (by eapply rc_inner_ok). Qed.

  (** Allocation of a new box. *)
  Definition no_frees (l : list aevent) : Prop :=
    Forall (fun e => match e with EvDealloc _ _ _ | EvRealloc _ _ _ _ _ => False | _ => True end) l.

  Definition same_heap w w' : Prop :=
    heap w' = heap w /\ next_id w' = next_id w /\ cur_scope w' = cur_scope w /\
    exists l, events w' = events w ++ l /\ no_frees l.
  Definition new_box x w w' : Prop :=
    (exists a l, heap w' = <[next_id w := Block a l [Some (RcBox 1 0 (Val x))]]> (heap w)) /\
    next_id w' = next_id w + 1 /\ cur_scope w' = cur_scope w /\
    exists l, events w' = events w ++ l /\ no_frees l.

  Definition refusal (r : option panic) : Prop := r = Some PUnwrap \/ r = Some PNoEnv.

  Lemma rc_new_ok x d w :
    exists w', (exists r, refusal (Some r) /\ rc_new x (d, w) = (Panic r, (d, w')) /\ same_heap w w' /\
                  ((forall n k, e_aok n k = true) -> is_Some (cur_scope w) -> False)) \/
               (exists p, rc_new x (d, w) = (Ret p, (d, w')) /\ sp_ptr p = Blk (next_id w) /\
                  new_box x w w').
  Proof.
    pose proof box_size_pos as Hz. unfold rc_new, sp_alloc_val, alloc_layout, alloc_for.
    destruct (cur_scope w) as [s|] eqn:Ec.
    2: { eexists. left. exists PNoEnv. split; [by right|]. split; [|split].
         - unfold on_snd, bind, on_unwind. simpl. rewrite Ec. simpl. reflexivity.
         - split_and!; try done. exists []. simpl. rewrite app_nil_r. split; [done|constructor].
         - intros _ [? ?]; congruence. }
    set (sz := @t_size (rcbox T) box_elem) in *.
    destruct (e_aok (ncalls w) sz) eqn:Ea.
    - set (a := e_alloc_for s (Selector MNone t_name)).
      set (l := Layout sz (@t_align (rcbox T) box_elem)).
      set (w1 := World (<[next_id w := Block a l [None]]> (heap w)) (next_id w + 1) (S (ncalls w))
        ((events w ++ [EvSelect s (Selector MNone t_name)]) ++ [EvAlloc a l (Some (next_id w))])
        (drops w) (cur_scope w)).
      assert (Hs : slots_at w1 (Blk (next_id w)) [None]).
      { eexists. simpl. by rewrite lookup_insert. }
      exists (setb (next_id w) (RcBox 1 0 (Val x)) w1). right.
      exists (SPtr (Blk (next_id w)) 1 a MNone). split; [|split; [done|]].
      + apply on_snd_Ret. erewrite (bind_Ret _ _ _ (Ok _)); [reflexivity|].
        rewrite (bind_Ret _ _ _ (Some (SPtr (Blk (next_id w)) 1 a MNone)) w1).
        2: { apply on_unwind_Ret. unfold bind at 1. rewrite Ec. fold a.
             rewrite (bind_Ret _ _ _ (Some (next_id w)) w1); [reflexivity|]. unfold ga_alloc. change (l_size l) with sz.
             rewrite (proj2 (N.eqb_neq sz 0)) by lia. cbn [ncalls add_event]. rewrite Ea.
             rewrite N.div_same by lia. reflexivity. }
        change (@t_needs_drop (rcbox T) box_elem) with false. cbn iota. rewrite bind_ret.
        erewrite bind_Ret; [reflexivity|].
        apply (write_at_slots w1 (Blk (next_id w)) [None] 0 _ Hz Hs). done.
      + unfold setb. simpl. rewrite lookup_insert. simpl. split_and!; simpl; try done.
        * rewrite insert_insert. by eexists _, _.
        * eexists. split; [by rewrite <-app_assoc|].
          unfold no_frees; repeat (constructor; [exact I|]); constructor.
    - eexists. left. exists PUnwrap. split; [by left|]. split; [|split].
      + unfold on_snd, bind, on_unwind, ga_alloc. simpl snd. rewrite Ec.
        cbn -[t_size N.div]. fold sz. rewrite (proj2 (N.eqb_neq sz 0)) by lia. rewrite Ea. reflexivity.
      + split_and!; cbn; try done. eexists. split; [by rewrite <-app_assoc|]. unfold no_frees; repeat (constructor; [exact I|]); constructor.
      + intros H. by rewrite H in Ea.
  Qed.

  Lemma same_heap_box w w' b rb : same_heap w w' -> box_at w b rb -> box_at w' b rb.
  Proof. intros (H&_) (blk&?&?). exists blk. by rewrite H. Qed.
  Lemma same_heap_fresh w w' : same_heap w w' -> fresh_ids w -> fresh_ids w'.
  Proof. intros (H&H'&_) Hf b. rewrite H, H'. apply Hf. Qed.
  Lemma new_box_old x w w' b rb : new_box x w w' -> fresh_ids w -> box_at w b rb -> box_at w' b rb.
  Proof.
    intros ((a&l&H)&_) Hf (blk&Hb&?). exists blk. rewrite H, lookup_insert_ne; [done|].
    intros <-. rewrite Hf in Hb; [done|lia].
  Qed.
  Lemma new_box_new x w w' : new_box x w w' -> box_at w' (next_id w) (RcBox 1 0 (Val x)).
  Proof. intros ((a&l&H)&_). eexists. by rewrite H, lookup_insert. Qed.
  Lemma new_box_fresh x w w' : new_box x w w' -> fresh_ids w -> fresh_ids w'.
  Proof.
    intros ((a&l&H)&Hn&_) Hf b Hb. rewrite H, lookup_insert_ne by lia. apply Hf. lia.
  Qed.
End rc_exec.
