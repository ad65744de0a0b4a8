(** Proofs about [Vec]: ownership predicates and one lemma per operation. *)
From Verif Require Export MemProofs VecModel.
From Coq Require Import ZifyBool ZifyNat ZifyN.

Ltac des_if :=
  match goal with
  | |- context [if ?b then _ else _] => destruct b eqn:?
  end.

Section vec.
  Context {EN : Env} {T : Type} {EL : Elem T}.
  Notation W := (world T).
  Notation MV := (M (vec * W)).
  Implicit Types (w : W) (v : vec) (s : list (option T)) (xs : list T).

  (** Largest number of bytes an allocation may have. *)
  Definition limit : N := isize_max + 1 - t_align.

  (** The world is usable: an environment is installed, block ids are fresh. *)
  Definition wok (w : W) : Prop := is_Some (cur_scope w) /\ fresh_ids w.

  (** [v] owns storage whose slots are [s]. *)
  Definition owns (w : W) (v : vec) (s : list (option T)) : Prop :=
    wok w /\ llen s = sp_len (v_ptr v) /\ llen s * t_size <= limit /\
    match vdata v with
    | Dangling => s = []
    | Blk b => 0 < llen s /\ b < next_id w /\
               heap w !! b = Some (Block (sp_alloc (v_ptr v)) (layout_of (v_ptr v)) s)
    end.

  (** The heap without the storage of [v]. *)
  Definition vrest (v : vec) (w : W) : gmap N (block T) := delete_ptr (vdata v) (heap w).

  (** Effect of a step on everything but the vector: the rest of the heap is the same, [ds] were
      destroyed, the current scope is the same. *)
  Definition keeps (v : vec) (w : W) (v' : vec) (w' : W) (ds : list T) : Prop :=
    vrest v' w' = vrest v w /\ drops w' = drops w ++ ds /\ cur_scope w' = cur_scope w /\
    next_id w <= next_id w'.

  (** [v] is a vector holding exactly [xs]. *)
  Definition rep (w : W) (v : vec) (xs : list T) : Prop :=
    v_len v = llen xs /\ exists rest, owns w v ((Some <$> xs) ++ rest).

  (** The allocator refused some request. *)
  Definition refuses : Prop := exists n sz, e_aok n sz = false.

  Lemma keeps_refl v w : keeps v w v w [].
  Proof. unfold keeps. rewrite app_nil_r. repeat split; lia. Qed.
  Lemma keeps_trans v1 w1 v2 w2 v3 w3 d1 d2 :
    keeps v1 w1 v2 w2 d1 -> keeps v2 w2 v3 w3 d2 -> keeps v1 w1 v3 w3 (d1 ++ d2).
  Proof.
    intros (?&?&?&?) (?&?&?&?). unfold keeps. split_and!; try congruence; [|lia].
    match goal with Ha : drops w3 = _, Hb : drops w2 = _ |- _ => rewrite Ha, Hb end.
    by rewrite app_assoc.
  Qed.

  Lemma vcap_pos : 0 < t_size -> forall v, vcap v = sp_len (v_ptr v).
  Proof. intros Hz v. unfold vcap. destruct (N.eqb_spec t_size 0); [lia|done]. Qed.

  Section sized.
  Context (Hz : 0 < t_size).

  Lemma owns_cap w v s : owns w v s -> vcap v = llen s.
  Proof. intros (_&H&_). by rewrite vcap_pos. Qed.
  Lemma llen_le_size s : llen s * t_size <= limit -> llen s <= isize_max.
  Proof. intros. pose proof t_align_pos. unfold limit in *. unfold isize_max in *. nia. Qed.
  Lemma owns_bound w v s : owns w v s -> llen s <= isize_max.
  Proof. intros (_&_&H&_). by apply llen_le_size. Qed.

  Lemma owns_slots w v s : owns w v s -> s <> [] -> slots_at w (vdata v) s.
  Proof.
    intros (_&_&_&H) Hs. destruct (vdata v); [done|]. destruct H as (_&_&H). simpl. eauto.
  Qed.

  (** Changing only the length field. *)
  Lemma owns_len w v s n : owns w v s -> owns w (Vec (v_ptr v) n) s.
  Proof. done. Qed.

  Lemma vec_set_len_eq w v s n :
    owns w v s -> n <= llen s -> vec_set_len n (v, w) = (Ret tt, (Vec (v_ptr v) n, w)).
  Proof.
    intros Ho Hn. unfold vec_set_len. rewrite bind_get_fst, bind_debug_assert; [done|].
    rewrite (owns_cap _ _ _ Ho). lia.
  Qed.

  Lemma owns_set_slots w v s s' :
    owns w v s -> length s' = length s -> s <> [] ->
    owns (set_slots (vdata v) s' w) v s' /\ vrest v (set_slots (vdata v) s' w) = vrest v w
    /\ drops (set_slots (vdata v) s' w) = drops w
    /\ cur_scope (set_slots (vdata v) s' w) = cur_scope w
    /\ next_id (set_slots (vdata v) s' w) = next_id w.
  Proof.
    intros (Hw&Hl&Hb&H) Hl' Hs. unfold owns, vrest. destruct (vdata v) as [|b] eqn:Hv; [done|].
    destruct H as (?&Hn&H). simpl. rewrite H. simpl. split_and!; try done.
    - destruct Hw as [? Hf]. split; [done|]. intros b' Hb'. simpl in *.
      rewrite lookup_insert_ne by lia. by apply Hf.
    - lia. - lia. - lia. - rewrite lookup_insert. done.
    - by rewrite delete_insert_delete.
  Qed.

  Lemma owns_drops w v s l : owns w v s -> owns (add_drops l w) v s.
  Proof.
    intros (Hw&Hl&Hb&H). unfold owns, wok, fresh_ids in *.
    rewrite heap_add_drops, next_add_drops, cur_add_drops. done.
  Qed.
  Lemma keeps_drops v w l : keeps v w v (add_drops l w) l.
  Proof.
    unfold keeps, vrest. rewrite heap_add_drops, next_add_drops, cur_add_drops, drops_add_drops.
    split_and!; try done.
  Qed.

  (** ** Growing *)
  Lemma umul_ok (a b : N) {S A} (k : N -> M S A) st :
    a * b <= limit -> bind (umul a b) k st = k (a * b) st.
  Proof. intros. apply bind_umul. unfold limit, usize_max, isize_max in *. lia. Qed.

  Lemma alloc_array_ok w n m :
    wok w -> 0 < n -> n * t_size <= limit ->
    exists a r w',
      alloc_array_uninit n (Selector m t_name) w = (Ret r, w') /\
      ((exists b, r = Ok (SPtr (Blk b) n a m) /\ e_aok (ncalls w) (n * t_size) = true /\
        b = next_id w /\ next_id w' = b + 1 /\
        heap w' = <[b := Block a (Layout (n * t_size) t_align) (replicate (N.to_nat n) None)]>
                    (heap w))
       \/ (r = Err AllocErr /\ e_aok (ncalls w) (n * t_size) = false /\
           heap w' = heap w /\ next_id w' = next_id w))
      /\ drops w' = drops w /\ cur_scope w' = cur_scope w /\ ncalls w' = S (ncalls w).
  Proof.
    intros [[sc Hc] Hf] Hn Hl. unfold alloc_array_uninit, layout_array.
    rewrite (proj2 (N.leb_le _ _)) by done.
    unfold alloc_layout. set (sel := Selector m t_name).
    exists (e_alloc_for sc sel).
    rewrite bind_assoc. erewrite bind_Ret by (unfold alloc_for; rewrite Hc; reflexivity).
    rewrite bind_assoc. unfold ga_alloc, bind at 1. simpl l_size.
    destruct (N.eqb_spec (n * t_size) 0) as [E|_]; [nia|]. simpl ncalls.
    destruct (e_aok (ncalls w) (n * t_size)) eqn:Ha.
    - eexists _, _. split; [reflexivity|]. simpl. split; [left|done].
      eexists. rewrite N.div_mul by lia. done.
    - eexists _, _. split; [reflexivity|]. simpl. split; [right|]; done.
  Qed.

  Lemma wok_step w w' :
    wok w -> cur_scope w' = cur_scope w -> heap w' = heap w -> next_id w' = next_id w -> wok w'.
  Proof. unfold wok, fresh_ids. intros [??] -> -> ->. done. Qed.

  Lemma owns_same_heap w v s w' :
    owns w v s -> cur_scope w' = cur_scope w -> heap w' = heap w -> next_id w' = next_id w ->
    owns w' v s.
  Proof.
    intros (Hw&Hl&Hb&H) ? Hh Hn. unfold owns. split_and!; try done; [by eapply wok_step|].
    by rewrite Hh, Hn.
  Qed.

  Lemma realloc_ok w v s n :
    owns w v s -> s <> [] -> 0 < n -> n * t_size <= limit ->
    exists r v' w', vec_realloc n (v, w) = (Ret r, (v', w')) /\
      keeps v w v' w' [] /\ ncalls w' = S (ncalls w) /\
      ((r = Ok tt /\ owns w' v' (take (N.to_nat n) s ++ replicate (N.to_nat n - length s) None) /\
        v_len v' = v_len v /\ sp_mark (v_ptr v') = sp_mark (v_ptr v) /\
        e_aok (ncalls w) (n * t_size) = true)
       \/ (r = Err AllocErr /\ v' = v /\ owns w' v s /\
           e_aok (ncalls w) (n * t_size) = false)).
  Proof.
    intros Ho Hs Hn Hlim. pose proof Ho as (Hw&Hl&Hb&H).
    unfold vec_realloc. rewrite bind_get_fst. unfold realloc_array.
    destruct (vdata v) as [|b] eqn:Hv; [done|]. destruct H as (_&Hbn&Hbl).
    assert (sp_ptr (v_ptr v) = Blk b) as Hv' by done.
    unfold on_snd, bind. simpl. unfold umul.
    rewrite (proj2 (N.leb_le _ _)) by (unfold limit, usize_max, isize_max in *; lia). simpl.
    unfold ga_realloc. rewrite Hv', Hbl. simpl. rewrite decide_True by done.
    destruct (N.eqb_spec (n * t_size) 0); [nia|].
    destruct (N.ltb_spec (isize_max + 1 - t_align) (n * t_size)) as [Hx|_];
      [unfold limit in Hlim; lia|].
    destruct (e_aok (ncalls w) (n * t_size)) eqn:Ha.
    - rewrite N.div_mul by lia. simpl. eexists _, _, _. split; [done|]. split; [|split; [done|]].
      + unfold keeps, vrest, vdata. simpl. rewrite Hv', app_nil_r. simpl. split_and!; try done; [|lia].
        rewrite delete_insert; [done|]. rewrite lookup_delete_ne by lia. apply Hw. lia.
      + left. split_and!; try done. unfold owns. simpl.
        assert (length (take (N.to_nat n) s ++ replicate (N.to_nat n - length s) None) = N.to_nat n)
          as Hlen. { rewrite app_length, take_length, replicate_length. lia. }
        rewrite !Hlen. split_and!; try lia.
        * destruct Hw as [? Hf]. split; [done|]. intros b' Hb'. simpl in *. rewrite lookup_insert_ne by lia.
          rewrite lookup_delete_ne by lia. apply Hf. lia.
        * rewrite lookup_insert. done.
    - simpl. eexists _, _, _. split; [by destruct v|]. split; [|split; [done|]].
      + unfold keeps, vrest. simpl. rewrite app_nil_r. split_and!; try done; lia.
      + right. split_and!; try done.
  Qed.

  Lemma grow_exact_ok w v s n :
    owns w v s -> v_len v <= llen s -> llen s < n -> n * t_size <= limit ->
    exists r v' w', vec_grow_exact n (v, w) = (Ret r, (v', w')) /\
      keeps v w v' w' [] /\ ncalls w' = S (ncalls w) /\
      ((r = Ok tt /\ owns w' v' (s ++ replicate (N.to_nat n - length s) None) /\
        v_len v' = v_len v /\ e_aok (ncalls w) (n * t_size) = true)
       \/ (r = Err AllocErr /\ v' = v /\ owns w' v s /\
           e_aok (ncalls w) (n * t_size) = false)).
  Proof.
    intros Ho Hlen Hn Hlim. unfold vec_grow_exact. rewrite bind_get_fst.
    rewrite (owns_cap _ _ _ Ho). rewrite bind_debug_assert by lia.
    pose proof Ho as (Hw&Hl&Hb&H).
    destruct (N.eqb_spec (llen s) 0) as [E|E].
    - destruct s; [|done].
      unfold vec_try_with_capacity_and_marker.
      destruct (N.eqb_spec n 0); [lia|]. destruct (N.eqb_spec t_size 0); [lia|]. simpl orb.
      destruct (alloc_array_ok w n (vmarker v) Hw) as (a&r&w'&Hr&Hcase&Hd&Hcur&Hnc); [lia|done|].
      assert (vdata v = Dangling) as Hdang.
      { destruct (vdata v); [done|]. simpl in H. lia. }
      destruct Hcase as [(b&->&Hok&->&Hnx&Hh)|(->&Hok&Hh&Hnx)];
        (erewrite bind_on_snd_Ret; [|erewrite bind_Ret by exact Hr; reflexivity]); simpl.
      + rewrite bind_put_fst. eexists _, _, _. split; [done|]. split; [|split; [done|]].
        * unfold keeps, vrest. rewrite Hdang. simpl. rewrite Hh, app_nil_r.
          split_and!; try done; [|lia]. rewrite delete_insert; [done|].
          apply Hw. lia.
        * left. split_and!; try done; [|simpl in *; lia].
          unfold owns. simpl. rewrite replicate_length, Nat.sub_0_r.
          split_and!; try lia.
          { destruct Hw as [? Hf]. split; [by rewrite Hcur|].
            intros b' Hb'. rewrite Hh. rewrite lookup_insert_ne by lia. apply Hf. lia. }
          { rewrite Hh, lookup_insert. done. }
      + eexists _, _, _. split; [done|]. split; [|split; [done|]].
        * unfold keeps, vrest. rewrite Hh, app_nil_r. split_and!; try done; lia.
        * right. split_and!; try done. by eapply owns_same_heap.
    - destruct (realloc_ok w v s n Ho) as (r&v'&w'&Hr&Hk&Hnc&Hcase); [by destruct s|lia|done|].
      eexists _, _, _. split; [exact Hr|]. split; [done|]. split; [done|].
      destruct Hcase as [(?&Ho'&?&?)|?]; [left|by right].
      rewrite take_ge in Ho' by lia. split_and!; try done. tauto.
  Qed.
  (** ** Reservation *)
  Definition fits (n : N) : Prop := n * t_size <= limit.

  Lemma fits_le a b : a <= b -> fits b -> fits a.
  Proof. unfold fits. nia. Qed.
  Lemma fits_bound a : fits a -> a <= isize_max.
  Proof. unfold fits, limit. pose proof t_align_pos. unfold isize_max. nia. Qed.

  Lemma rep_cap w v xs : rep w v xs -> llen xs <= vcap v /\ fits (vcap v).
  Proof.
    intros [Hl [rest Ho]]. rewrite (owns_cap _ _ _ Ho). destruct Ho as (_&_&?&_).
    split; [|done]. rewrite app_length, fmap_length. lia.
  Qed.

  Lemma guarded_add_ok {S A} a b (k : N -> M S A) st :
    a + b <= usize_max -> bind (overflow_guarded_add a b) k st = k (a + b) st.
  Proof. intros. unfold overflow_guarded_add. by rewrite (proj2 (N.leb_le _ _)). Qed.

  Lemma rep_grow w v xs rest n w' v' :
    owns w v ((Some <$> xs) ++ rest) ->
    owns w' v' (((Some <$> xs) ++ rest) ++ replicate n None) ->
    v_len v' = llen xs -> rep w' v' xs.
  Proof. intros _ Ho ?. split; [done|]. rewrite <-app_assoc in Ho. eauto. Qed.

  Lemma grow_exact_rep w v xs n :
    rep w v xs -> vcap v < n -> fits n ->
    exists r v' w', vec_grow_exact n (v, w) = (Ret r, (v', w')) /\ keeps v w v' w' [] /\
      rep w' v' xs /\ ncalls w' = S (ncalls w) /\
      ((r = Ok tt /\ vcap v' = n /\ e_aok (ncalls w) (n * t_size) = true)
       \/ (r = Err AllocErr /\ v' = v /\ e_aok (ncalls w) (n * t_size) = false)).
  Proof.
    intros [Hl [rest Ho]] Hc Hf. rewrite (owns_cap _ _ _ Ho) in Hc.
    destruct (grow_exact_ok w v _ n Ho) as (r&v'&w'&Hr&Hk&Hnc&Hcase); [|done|done|].
    { rewrite Hl, app_length, fmap_length. lia. }
    exists r, v', w'. split_and!; try done.
    - destruct Hcase as [(->&Ho'&Hl'&?)|(->&->&Ho'&?)].
      + eapply rep_grow; [done|done|congruence].
      + split; eauto.
    - destruct Hcase as [(->&Ho'&Hl'&?)|(->&->&Ho'&?)]; [left|by right].
      split_and!; try done. rewrite (owns_cap _ _ _ Ho'), app_length, replicate_length. lia.
  Qed.

  Lemma try_reserve_exact_ok w v xs n :
    rep w v xs -> fits (llen xs + n) ->
    exists r v' w', vec_try_reserve_exact n (v, w) = (Ret r, (v', w')) /\ keeps v w v' w' [] /\
      rep w' v' xs /\
      ((r = Ok tt /\ llen xs + n <= vcap v' /\ vcap v <= vcap v' /\
        (llen xs + n <= vcap v -> v' = v /\ w' = w) /\
        (vcap v < llen xs + n -> vcap v' = llen xs + n))
       \/ (r = Err AllocErr /\ v' = v /\ vcap v < llen xs + n /\
           e_aok (ncalls w) ((llen xs + n) * t_size) = false)).
  Proof.
    intros Hr Hf. pose proof (fits_bound _ Hf). unfold vec_try_reserve_exact.
    rewrite bind_get_fst. rewrite (proj1 Hr).
    rewrite guarded_add_ok by (unfold isize_max, usize_max in *; lia).
    destruct (N.ltb_spec (vcap v) (llen xs + n)).
    - destruct (grow_exact_rep w v xs _ Hr H0 Hf) as (r&v'&w'&?&?&?&?&Hcase).
      exists r, v', w'. split_and!; try done.
      destruct Hcase as [(->&?&?)|(->&->&?)]; [left|right]; split_and!; try done; lia.
    - eexists _, _, _. split; [reflexivity|]. split_and!; try done; [apply keeps_refl|].
      left. split_and!; try done; lia.
  Qed.

  Lemma reserve_exact_ok w v xs n :
    rep w v xs -> fits (llen xs + n) ->
    exists r v' w', vec_reserve_exact n (v, w) = (r, (v', w')) /\ keeps v w v' w' [] /\
      rep w' v' xs /\
      ((r = Ret tt /\ llen xs + n <= vcap v' /\ vcap v <= vcap v' /\
        (llen xs + n <= vcap v -> v' = v /\ w' = w) /\
        (vcap v < llen xs + n -> vcap v' = llen xs + n))
       \/ (r = Panic PUnwrap /\ v' = v /\ vcap v < llen xs + n /\
           e_aok (ncalls w) ((llen xs + n) * t_size) = false)).
  Proof.
    intros Hr Hf. destruct (try_reserve_exact_ok w v xs n Hr Hf) as (r&v'&w'&Hm&?&?&Hcase).
    unfold vec_reserve_exact. rewrite (bind_Ret _ _ _ _ _ Hm).
    destruct Hcase as [(->&Hcase)|(->&Hcase)]; eexists _, _, _; (split; [reflexivity|]);
      split_and!; try done; [by left|by right].
  Qed.

  (** Capacity chosen by amortised growth. *)
  Definition amortized (c req : N) : N := N.max (N.max req min_non_zero_cap) (c * 2).

  Lemma try_reserve_ok w v xs n :
    rep w v xs -> (vcap v < llen xs + n -> fits (amortized (vcap v) (llen xs + n))) ->
    exists r v' w', vec_try_reserve n (v, w) = (Ret r, (v', w')) /\ keeps v w v' w' [] /\
      rep w' v' xs /\
      ((r = Ok tt /\ llen xs + n <= vcap v' /\ vcap v <= vcap v' /\
        (llen xs + n <= vcap v -> v' = v /\ w' = w) /\
        (vcap v < llen xs + n -> vcap v' = amortized (vcap v) (llen xs + n)))
       \/ (r = Err AllocErr /\ v' = v /\ vcap v < llen xs + n /\
           e_aok (ncalls w) (amortized (vcap v) (llen xs + n) * t_size) = false)).
  Proof.
    intros Hr Hf. destruct (rep_cap _ _ _ Hr) as [Hlc Hfc]. pose proof (fits_bound _ Hfc).
    assert (llen xs + n <= usize_max) as Hreq.
    { destruct (N.ltb_spec (vcap v) (llen xs + n)) as [Hlt|]; [|unfold isize_max, usize_max in *; lia].
      specialize (Hf Hlt). apply fits_bound in Hf. unfold amortized, isize_max, usize_max in *. lia. }
    unfold vec_try_reserve. rewrite bind_get_fst. rewrite (proj1 Hr).
    rewrite guarded_add_ok by done.
    destruct (N.ltb_spec (vcap v) (llen xs + n)) as [Hlt|Hge].
    - unfold vec_grow_amortized. rewrite bind_get_fst, bind_debug_assert by lia.
      rewrite bind_umul by (unfold isize_max, usize_max in *; lia).
      fold (amortized (vcap v) (llen xs + n)).
      assert (vcap v < amortized (vcap v) (llen xs + n)) as Hlt' by (unfold amortized; lia).
      destruct (grow_exact_rep w v xs _ Hr Hlt' (Hf Hlt)) as (r&v'&w'&?&?&?&?&Hcase).
      exists r, v', w'. split_and!; try done.
      destruct Hcase as [(->&?&?)|(->&->&?)]; [left|right]; split_and!; try done;
        unfold amortized in *; lia.
    - eexists _, _, _. split; [reflexivity|]. split_and!; try done; [apply keeps_refl|].
      left. split_and!; try done; lia.
  Qed.

  Lemma reserve_ok w v xs n :
    rep w v xs -> (vcap v < llen xs + n -> fits (amortized (vcap v) (llen xs + n))) ->
    exists r v' w', vec_reserve n (v, w) = (r, (v', w')) /\ keeps v w v' w' [] /\
      rep w' v' xs /\
      ((r = Ret tt /\ llen xs + n <= vcap v' /\ vcap v <= vcap v' /\
        (llen xs + n <= vcap v -> v' = v /\ w' = w) /\
        (vcap v < llen xs + n -> vcap v' = amortized (vcap v) (llen xs + n)))
       \/ (r = Panic PUnwrap /\ v' = v /\ vcap v < llen xs + n /\
           e_aok (ncalls w) (amortized (vcap v) (llen xs + n) * t_size) = false)).
  Proof.
    intros Hr Hf. destruct (try_reserve_ok w v xs n Hr Hf) as (r&v'&w'&Hm&?&?&Hcase).
    unfold vec_reserve. rewrite (bind_Ret _ _ _ _ _ Hm).
    destruct Hcase as [(->&Hcase)|(->&Hcase)]; eexists _, _, _; (split; [reflexivity|]);
      split_and!; try done; [by left|by right].
  Qed.

  (** ** Element operations *)
  (** Outcome of a panic during which the value [x] is dropped. *)
  Definition unwound {A} (p : panic) (x : T) : res A :=
    if t_needs_drop && t_drop_panics x then Abort else Panic p.

  Lemma on_unwind_drop {A} (m : MV A) v w p v' w' x :
    m (v, w) = (Panic p, (v', w')) ->
    on_unwind m (on_snd (drop_val x)) (v, w) = (unwound p x, (v', add_drop x w')).
  Proof.
    intros Hm. unfold on_unwind. rewrite Hm. unfold on_snd, drop_val, unwound. simpl.
    by destruct (t_needs_drop && t_drop_panics x).
  Qed.

  Lemma bind_unwound {A B} (m : MV A) (k : A -> MV B) st p x st' :
    m st = (unwound p x, st') -> bind m k st = (unwound p x, st').
  Proof. unfold bind, unwound. intros ->. by destruct (t_needs_drop && t_drop_panics x). Qed.

  Lemma rep_add_drop w v xs x : rep w v xs -> rep (add_drop x w) v xs.
  Proof. intros [? [rest Ho]]. split; [done|]. exists rest. by apply (owns_drops _ _ _ [x]). Qed.
  Lemma keeps_add_drop v w v' w' ds x :
    keeps v w v' w' ds -> keeps v w v' (add_drop x w') (ds ++ [x]).
  Proof. intros. eapply keeps_trans; [done|]. apply (keeps_drops _ _ [x]). Qed.

  (** Replacing the slots and the length. *)
  Lemma rep_update w v s s' xs rest :
    owns w v s -> s <> [] -> length s' = length s -> s' = (Some <$> xs) ++ rest ->
    rep (set_slots (vdata v) s' w) (Vec (v_ptr v) (llen xs)) xs /\
    keeps v w (Vec (v_ptr v) (llen xs)) (set_slots (vdata v) s' w) [].
  Proof.
    intros Ho Hs Hl ->. destruct (owns_set_slots _ _ _ _ Ho Hl Hs) as (Ho'&?&?&?&?).
    split.
    - split; [done|]. exists rest. exact Ho'.
    - unfold keeps. rewrite app_nil_r. split_and!; try done. lia.
  Qed.

  Lemma push_within w v xs x :
    rep w v xs -> llen xs < vcap v ->
    exists v' w', vec_push x (v, w) = (Ret tt, (v', w')) /\ rep w' v' (xs ++ [x]) /\
      keeps v w v' w' [] /\ vcap v' = vcap v /\ events w' = events w /\ ncalls w' = ncalls w /\
      v_ptr v' = v_ptr v.
  Proof.
    intros Hr Hlt. pose proof (rep_cap _ _ _ Hr) as [? Hf].
    destruct (reserve_exact_ok w v xs 1 Hr) as (r&v1&w1&Hm&Hk&Hr1&Hcase).
    { eapply fits_le; [|done]. lia. }
    destruct Hcase as [(->&?&?&Hsame&_)|(_&_&?&_)]; [|lia].
    destruct Hsame as [-> ->]; [lia|].
    unfold vec_push. rewrite (bind_Ret _ _ _ tt (v, w)) by (by apply on_unwind_Ret).
    rewrite bind_get_fst. destruct Hr as [Hl [rest Ho]].
    rewrite (owns_cap _ _ _ Ho) in *. rewrite app_length, fmap_length in *.
    destruct rest as [|r0 rest]; [simpl in *; lia|].
    assert (Hs : (Some <$> xs) ++ r0 :: rest <> []) by (by destruct xs).
    erewrite bind_on_snd_Ret.
    2: { apply write_at_slots; [done|by apply owns_slots|]. rewrite Hl, app_length, fmap_length.
      simpl. lia. }
    rewrite Hl. replace (N.to_nat (llen xs)) with (length (Some <$> xs) + 0)%nat
      by (rewrite fmap_length; lia).
    rewrite insert_app_r. simpl.
    pose proof (owns_bound _ _ _ Ho) as Hb. rewrite app_length, fmap_length in Hb. simpl in Hb.
    rewrite bind_uadd by (unfold isize_max, usize_max in *; lia).
    destruct (rep_update w v _ ((Some <$> xs) ++ Some x :: rest) (xs ++ [x]) rest Ho Hs)
      as [Hr' Hk'].
    { by rewrite !app_length. } { rewrite fmap_app, <-app_assoc. done. }
    rewrite (vec_set_len_eq _ _ ((Some <$> xs) ++ Some x :: rest)).
    3: { rewrite app_length, fmap_length. simpl. lia. }
    2: { destruct Hr' as [_ [? ?]]. apply (owns_set_slots _ _ _ _ Ho); [|done]. by rewrite !app_length. }
    replace (llen xs + 1) with (llen (xs ++ [x])) by (rewrite app_length; simpl; lia).
    eexists _, _. split; [reflexivity|]. split_and!; try done.
    - rewrite !vcap_pos by done. simpl. destruct Ho as (_&Ho&_). rewrite <-Ho, app_length, fmap_length.
      done.
    - unfold set_slots. destruct (vdata v); [done|]. by destruct (heap w !! b).
    - unfold set_slots. destruct (vdata v); [done|]. by destruct (heap w !! b).
  Qed.

  Ltac fin := split_and!;
    first [ done | lia | by apply rep_add_drop | by apply keeps_refl
          | by apply (keeps_add_drop _ _ _ _ [])
          | by apply (keeps_add_drop _ _ _ _ []), keeps_refl
          | unfold refuses; by eauto | idtac ].

  Lemma push_ok w v xs x :
    rep w v xs -> fits (llen xs + 1) ->
    exists r v' w', vec_push x (v, w) = (r, (v', w')) /\
      ((r = Ret tt /\ rep w' v' (xs ++ [x]) /\ keeps v w v' w' [] /\
        vcap v' = N.max (vcap v) (llen xs + 1))
       \/ (r = unwound PUnwrap x /\ rep w' v' xs /\ keeps v w v' w' [x] /\ v' = v /\
           vcap v = llen xs /\ refuses)).
  Proof.
    intros Hr Hf. pose proof (rep_cap _ _ _ Hr) as [Hlc _].
    destruct (reserve_exact_ok w v xs 1 Hr Hf) as (r&v1&w1&Hm&Hk&Hr1&Hcase).
    destruct Hcase as [(->&Hc1&Hc2&Hc3&Hc4)|(->&->&?&?)].
    - destruct (push_within w1 v1 xs x Hr1) as (v'&w'&Hp&Hr'&Hk'&Hc'&_); [lia|].
      exists (Ret tt), v', w'. split.
      + rewrite <-Hp. unfold vec_push.
        rewrite (bind_Ret _ _ _ tt (v1, w1)) by (by apply on_unwind_Ret).
        symmetry. rewrite (bind_Ret _ _ _ tt (v1, w1)); [done|]. apply on_unwind_Ret.
        destruct (reserve_exact_ok w1 v1 xs 1 Hr1 Hf) as (r2&v2&w2&Hm2&_&_&Hcase2).
        rewrite Hm2. destruct Hcase2 as [(->&_&_&Hs&_)|(_&_&?&_)]; [|lia].
        destruct Hs as [-> ->]; [lia|]. done.
      + left. split_and!; try done; [by eapply (keeps_trans _ _ _ _ _ _ [] [])|].
        rewrite Hc'. destruct (N.ltb_spec (vcap v) (llen xs + 1)) as [Hlt|Hge].
        * rewrite Hc4 by done. lia.
        * destruct Hc3 as [-> _]; lia.
    - eexists _, _, _. split.
      + unfold vec_push. eapply bind_unwound. apply on_unwind_drop. exact Hm.
      + right. fin.
  Qed.

  Lemma rep_slots w v xs rest :
    owns w v ((Some <$> xs) ++ rest) -> xs <> [] -> slots_at w (vdata v) ((Some <$> xs) ++ rest).
  Proof. intros Ho Hx. apply owns_slots; [done|]. by destruct xs. Qed.

  Lemma lookup_slots xs rest i x :
    xs !! i = Some x -> ((Some <$> xs) ++ rest) !! i = Some (Some x).
  Proof. intros H. apply lookup_app_l_Some. by rewrite list_lookup_fmap, H. Qed.

  Lemma read_rep w v xs i x :
    rep w v xs -> xs !! N.to_nat i = Some x -> read_at (vdata v) i w = (Ret x, w).
  Proof.
    intros [_ [rest Ho]] Hx. eapply read_at_slots; [done|apply rep_slots; [done|by intros ->]|].
    by apply lookup_slots.
  Qed.

  (** Shrinking the visible part of the vector. *)
  Lemma rep_take w v xs n :
    rep w v xs -> n <= llen xs -> rep w (Vec (v_ptr v) n) (take (N.to_nat n) xs).
  Proof.
    intros [Hl [rest Ho]] Hn. split; [simpl; rewrite take_length; lia|].
    exists ((Some <$> drop (N.to_nat n) xs) ++ rest).
    rewrite app_assoc, <-fmap_app, take_drop. exact Ho.
  Qed.
  Lemma keeps_len v w n : keeps v w (Vec (v_ptr v) n) w [].
  Proof. exact (keeps_refl v w). Qed.

  Lemma pop_ok w v xs :
    rep w v xs ->
    exists v' w', vec_pop (v, w) = (Ret (last xs), (v', w')) /\
      rep w' v' (take (length xs - 1) xs) /\ keeps v w v' w' [] /\ v_ptr v' = v_ptr v.
  Proof.
    intros Hr. unfold vec_pop. rewrite bind_get_fst. pose proof (proj1 Hr) as Hl. rewrite Hl.
    destruct xs as [|x0 xs0] eqn:Hxs.
    - exists v, w. simpl. split; [done|]. split_and!; try done; apply keeps_refl.
    - rewrite <-Hxs in *. assert (length xs <> 0%nat) as Hn by (by subst).
      destruct (N.eqb_spec (llen xs) 0); [lia|]. rewrite bind_usub by lia.
      destruct (lookup_lt_is_Some_2 xs (length xs - 1)) as [x Hx]; [lia|].
      erewrite bind_on_snd_Ret.
      2: { apply (read_rep _ _ xs _ x); [done|].
           by replace (N.to_nat (llen xs - 1)) with (length xs - 1)%nat by lia. }
      pose proof Hr as [_ [rest Ho]].
      erewrite (bind_Ret (vec_set_len _)).
      2: { eapply vec_set_len_eq; [done|]. rewrite app_length, fmap_length. lia. }
      rewrite last_lookup. replace (Nat.pred (length xs)) with (length xs - 1)%nat by lia.
      rewrite Hx. eexists _, _. split; [done|]. split_and!; try done; [|apply keeps_len].
      replace (length xs - 1)%nat with (N.to_nat (llen xs - 1)) by lia.
      apply rep_take; [done|lia].
  Qed.

  Lemma take_drop_middle_N xs i x :
    xs !! N.to_nat i = Some x ->
    xs = take (N.to_nat i) xs ++ x :: drop (S (N.to_nat i)) xs.
  Proof. intros. by rewrite take_drop_middle. Qed.

  Lemma copied_app (A B C D : list (option T)) i j n :
    (** general shape: source range B, destination range C *)
    forall s d, s = A ++ B ++ D -> N.to_nat i = length A -> N.to_nat n = length B ->
    copied s i d j n = take (N.to_nat j) d ++ B ++ drop (N.to_nat j + N.to_nat n) d.
  Proof.
    intros s d -> Hi Hn. unfold copied. rewrite Hi, drop_app. rewrite Hn, take_app. done.
  Qed.

  Lemma insert_ok w v xs i x :
    rep w v xs -> fits (llen xs + 1) ->
    exists r v' w', vec_insert i x (v, w) = (r, (v', w')) /\
      ((i <= llen xs /\ r = Ret tt /\
        rep w' v' (take (N.to_nat i) xs ++ x :: drop (N.to_nat i) xs) /\ keeps v w v' w' [] /\
        vcap v' = N.max (vcap v) (llen xs + 1))
       \/ (i <= llen xs /\ r = unwound PUnwrap x /\ rep w' v' xs /\ keeps v w v' w' [x] /\
           v' = v /\ vcap v = llen xs /\ refuses)
       \/ (llen xs < i /\ r = unwound PAssert x /\ rep w' v' xs /\ keeps v w v' w' [x] /\
           v' = v)).
  Proof.
    intros Hr Hf. pose proof (rep_cap _ _ _ Hr) as [Hlc _]. unfold vec_insert.
    pose proof (proj1 Hr) as Hl.
    destruct (N.leb_spec i (llen xs)) as [Hi|Hi]; cycle 1.
    { eexists _, _, _. split.
      - eapply bind_unwound. apply on_unwind_drop. rewrite bind_get_fst, Hl.
        rewrite bind_assert_false by lia. reflexivity.
      - right. right. fin. }
    (* the state after the optional reservation *)
    assert (exists r v1 w1,
      (v <- get_fst; assert (i <=? v_len v) ;;
       (if v_len v =? vcap v then vec_reserve_exact 1 else ret tt)) (v, w) = (r, (v1, w1)) /\
      keeps v w v1 w1 [] /\ rep w1 v1 xs /\
      ((r = Ret tt /\ llen xs + 1 <= vcap v1 /\ vcap v1 = N.max (vcap v) (llen xs + 1)) \/
       (r = Panic PUnwrap /\ v1 = v /\ vcap v = llen xs /\ refuses)))
      as (r&v1&w1&Hm&Hk&Hr1&Hcase).
    { rewrite bind_get_fst, Hl, bind_assert by lia.
      destruct (N.eqb_spec (llen xs) (vcap v)) as [He|He].
      - destruct (reserve_exact_ok w v xs 1 Hr Hf) as (r&v1&w1&Hm&Hk&Hr1&Hcase).
        exists r, v1, w1. split_and!; try done.
        destruct Hcase as [(->&?&?&?&Hc)|(->&->&?&?)]; [left|right]; split_and!; try done.
        all: try (unfold refuses; by eauto). all: rewrite ?Hc; lia.
      - exists (Ret tt), v, w. split_and!; try done; [apply keeps_refl|]. left. fin. }
    destruct Hcase as [(->&Hc&Hceq)|(->&->&Hc&Href)]; cycle 1.
    { eexists _, _, _. split.
      - eapply bind_unwound. apply on_unwind_drop. exact Hm.
      - right. left. fin. }
    rewrite (bind_Ret _ _ _ tt (v1, w1)) by (by apply on_unwind_Ret). clear Hm.
    rewrite bind_get_fst. rewrite (proj1 Hr1).
    destruct Hr1 as [Hl1 [rest Ho]]. pose proof (owns_bound _ _ _ Ho) as Hb.
    rewrite (owns_cap _ _ _ Ho) in Hc.
    rewrite !app_length, !fmap_length in *.
    rewrite bind_uadd by (unfold isize_max, usize_max in *; lia).
    rewrite bind_assume by lia. rewrite bind_usub by done.
    destruct rest as [|r0 rest]; [simpl in *; lia|].
    set (A := Some <$> take (N.to_nat i) xs). set (B := Some <$> drop (N.to_nat i) xs).
    assert (Hs : (Some <$> xs) ++ r0 :: rest = A ++ B ++ r0 :: rest).
    { unfold A, B. by rewrite app_assoc, <-fmap_app, take_drop. }
    rewrite Hs in Ho.
    assert (HA : length A = N.to_nat i) by (unfold A; rewrite fmap_length, take_length; lia).
    assert (HB : length B = (length xs - N.to_nat i)%nat)
      by (unfold B; rewrite fmap_length, drop_length; lia).
    assert (Hne : A ++ B ++ r0 :: rest <> []) by (by destruct A, B).
    pose proof (owns_slots _ _ _ Ho Hne) as Hsl.
    erewrite bind_on_snd_Ret.
    2: { eapply (copy_at_slots _ _ _ _ _ _ _ _ Hz Hsl Hsl); rewrite !app_length; simpl; lia. }
    rewrite (copied_app A B [] (r0 :: rest)) by (done || lia).
    set (s1 := take (N.to_nat (i + 1)) (A ++ B ++ r0 :: rest) ++ B
                 ++ drop (N.to_nat (i + 1) + N.to_nat (llen xs - i)) (A ++ B ++ r0 :: rest)).
    assert (exists h, s1 = A ++ h :: B ++ rest) as [h Hs1].
    { unfold s1. replace (N.to_nat (i + 1)) with (length A + 1)%nat by lia.
      rewrite take_add_app by done.
      replace (length A + 1 + N.to_nat (llen xs - i))%nat with (length A + (length B + 1))%nat by lia.
      rewrite drop_add_app by done.
      rewrite drop_add_app by done. simpl. rewrite drop_0.
      destruct B as [|b B']; simpl; rewrite <-app_assoc; eauto. }
    rewrite Hs1. clear s1 Hs1.
    assert (Hlen1 : length (A ++ h :: B ++ rest) = length (A ++ B ++ r0 :: rest)).
    { rewrite !app_length. simpl. rewrite !app_length. simpl. lia. }
    erewrite bind_on_snd_Ret.
    2: { apply write_at_slots; [done|by eapply slots_at_set|].
         rewrite Hlen1, !app_length. simpl. lia. }
    rewrite set_slots_twice.
    replace (N.to_nat i) with (length A + 0)%nat by lia. rewrite insert_app_r. simpl.
    set (s2 := A ++ Some x :: B ++ rest).
    assert (Hlen2 : length s2 = length (A ++ B ++ r0 :: rest)) by (rewrite <-Hlen1; unfold s2; by rewrite !app_length).
    destruct (rep_update w1 v1 _ s2 (take (N.to_nat i) xs ++ x :: drop (N.to_nat i) xs) rest Ho Hne)
      as [Hr' Hk']; [done| |].
    { unfold s2, A, B. rewrite fmap_app, fmap_cons, <-app_assoc. done. }
    destruct (owns_set_slots _ _ _ _ Ho Hlen2 Hne) as (Ho2&_).
    rewrite (vec_set_len_eq _ _ s2); [|done|rewrite Hlen2, !app_length; simpl; lia].
    assert (llen (take (N.to_nat i) xs ++ x :: drop (N.to_nat i) xs) = llen xs + 1) as Hlx.
    { rewrite app_length. simpl. rewrite take_length, drop_length. lia. }
    rewrite Hlx in Hr', Hk'.
    eexists _, _, _. split; [reflexivity|]. left. rewrite Nat.add_0_r, HA. split_and!; try done.
    by eapply (keeps_trans _ _ _ _ _ _ [] []).
  Qed.
  End sized.
End vec.
