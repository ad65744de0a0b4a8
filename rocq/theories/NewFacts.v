(** Proofs about creating shared pointers (C86, C87). *)
From Verif Require Export NewModel SpecNew VecProofs6 Witness.

Section alloc_any.
  Context {EN : Env} {B : Type} {EB : Elem B} (Hz : 0 < t_size) (Hnd : t_needs_drop = false).
  Context (Hnp : forall x : B, t_drop_panics x = false).
  Notation l := (Layout t_size t_align).

  (** [ScopePtr::alloc] of a type without drop glue, with any selector. *)
  Lemma alloc_val_ok (w : world B) x m ty sc :
    cur_scope w = Some sc -> e_aok (ncalls w) t_size = true ->
    let a := e_alloc_for sc (Selector m ty) in
    sp_alloc_val x (Selector m ty) w =
      (Ret (Ok (SPtr (Blk (next_id w)) 1 a m)),
       World (<[next_id w := Block a l [Some x]]> (heap w)) (next_id w + 1) (S (ncalls w))
         (events w ++ asked sc (Selector m ty) a l (Some (next_id w))) (drops w) (cur_scope w)).
  Proof.
    intros Hc Ha a. unfold sp_alloc_val. erewrite bind_Ret.
    2: { apply on_unwind_Ret. unfold alloc_layout, alloc_for, bind. rewrite Hc. unfold ga_alloc. simpl.
         rewrite (proj2 (N.eqb_neq t_size 0)) by lia. rewrite Ha, N.div_same by lia. reflexivity. }
    rewrite Hnd, bind_ret. unfold write_at. destruct (N.eqb_spec t_size 0); [lia|].
    unfold get_slots, put_slots, bind. simpl. rewrite lookup_insert. simpl. rewrite lookup_insert. simpl.
    rewrite insert_insert. unfold asked, set_heap. simpl. by rewrite <-app_assoc.
  Qed.
  Lemma alloc_val_refused (w : world B) x m ty sc :
    cur_scope w = Some sc -> e_aok (ncalls w) t_size = false ->
    let a := e_alloc_for sc (Selector m ty) in
    sp_alloc_val x (Selector m ty) w =
      (Ret (Err AllocErr),
       World (heap w) (next_id w) (S (ncalls w))
         (events w ++ asked sc (Selector m ty) a l None) (drops w ++ [x]) (cur_scope w)).
  Proof.
    intros Hc Ha a. unfold sp_alloc_val. erewrite bind_Ret.
    2: { apply on_unwind_Ret. unfold alloc_layout, alloc_for, bind. rewrite Hc. unfold ga_alloc. simpl.
         rewrite (proj2 (N.eqb_neq t_size 0)) by lia. rewrite Ha. reflexivity. }
    cbv iota beta. erewrite bind_Ret.
    2: { unfold drop_val. rewrite Hnp, andb_false_r. reflexivity. }
    unfold asked, add_drop. simpl. by rewrite <-app_assoc.
  Qed.
  Lemma alloc_val_no_env (w : world B) x m ty :
    cur_scope w = None -> sp_alloc_val x (Selector m ty) w = (Panic PNoEnv, add_drop x w).
  Proof.
    intros Hc. unfold sp_alloc_val, alloc_layout, alloc_for, on_unwind, bind. rewrite Hc.
    unfold drop_val. by rewrite Hnp, andb_false_r.
  Qed.
End alloc_any.

Lemma padded_spec n a l : 0 < a -> struct_layout n a l -> l = Layout ((n + a - 1) / a * a) a.
Proof.
  intros Ha (H1&H2&H3&k&H4). destruct l as [s al]. simpl in *. subst al s. f_equal.
  assert (k = (n + a - 1) / a); [|congruence]. apply N.div_unique with (n + a - 1 - k * a); nia.
Qed.
Lemma padded_pos n a : 0 < a -> 0 < n -> 0 < (n + a - 1) / a * a.
Proof.
  intros Ha Hn. enough (1 <= (n + a - 1) / a) by nia. apply N.div_le_lower_bound; lia.
Qed.
Lemma padded_is n a : 0 < a -> struct_layout n a (Layout ((n + a - 1) / a * a) a).
Proof.
  intros Ha. pose proof (N.div_mod (n + a - 1) a ltac:(lia)). pose proof (N.mod_lt (n + a - 1) a ltac:(lia)).
  split_and!; simpl; try done; try nia; by eexists.
Qed.

Lemma read_one {EN : Env} {B : Type} {EB : Elem B} (Hz : 0 < t_size) (w : world B) b a l x :
  heap w !! b = Some (Block a l [Some x]) -> read_at (Blk b) 0 w = (Ret x, w).
Proof. intros H. eapply read_at_slots; [done|by eexists|done]. Qed.

Section shared_new.
  Context {EN : Env} {T : Type} {EL : Elem T}.
  Notation BEL := (rcbox_elem EL).
  Implicit Types (d : list T) (x : T).

  Lemma box_elem_pos : 0 < @t_size _ BEL.
  Proof. simpl. replace (16 + t_size + box_align EL - 1) with ((16 + t_size) + box_align EL - 1) by lia.
    apply padded_pos; [apply box_align_pos|lia]. Qed.
  Lemma box_elem_layout l : struct_layout (16 + t_size) (N.max 8 t_align) l -> l = Layout (@t_size _ BEL) (@t_align _ BEL).
  Proof. intros H. apply padded_spec in H; [|lia]. exact H. Qed.

  Lemma arc_try_new_ok d (w : world (rcbox T)) x sc l :
    cur_scope w = Some sc -> struct_layout (16 + t_size) (N.max 8 t_align) l -> e_aok (ncalls w) (l_size l) = true ->
    let s := Selector MNone t_name in let a := e_alloc_for sc s in
    arc_try_new x (d, w) =
      (Ret (Ok (SPtr (Blk (next_id w)) 1 a MNone)),
       (d, World (<[next_id w := Block a l [Some (RcBox 1 0 (Val x))]]> (heap w)) (next_id w + 1) (S (ncalls w))
             (events w ++ asked sc s a l (Some (next_id w))) (drops w) (cur_scope w))).
  Proof.
    intros Hc Hl Ha s a. apply box_elem_layout in Hl as ->. unfold arc_try_new.
    apply on_snd_Ret. by apply (alloc_val_ok (EB:=BEL) box_elem_pos).
  Qed.
  Lemma arc_try_new_refused d (w : world (rcbox T)) x sc l :
    cur_scope w = Some sc -> struct_layout (16 + t_size) (N.max 8 t_align) l -> e_aok (ncalls w) (l_size l) = false ->
    let s := Selector MNone t_name in let a := e_alloc_for sc s in
    arc_try_new x (d, w) =
      (Ret (Err AllocErr),
       (d, World (heap w) (next_id w) (S (ncalls w)) (events w ++ asked sc s a l None)
             (drops w ++ [RcBox 1 0 (Val x)]) (cur_scope w))).
  Proof.
    intros Hc Hl Ha s a. apply box_elem_layout in Hl as ->. unfold arc_try_new.
    apply on_snd_Ret. by apply (alloc_val_refused (EB:=BEL) box_elem_pos).
  Qed.
  (** [Rc::new] and [Arc::new] are the same computation. *)
  Lemma rc_new_arc_new x st : rc_new x st = arc_new x st.
  Proof.
    unfold rc_new, arc_new, arc_try_new, on_snd, bind. destruct st as [d w]. simpl.
    match goal with |- context [sp_alloc_val ?b ?s ?w] => destruct (sp_alloc_val b s w) as [[[p|e]|?| |?] w'] end; done.
  Qed.

  Context (mn fn : N).
  Notation MEL := (master_elem EL mn).
  Notation FEL := (fence_elem T fn).
  Lemma master_layout l : struct_layout (16 + t_size) (N.max 8 t_align) l -> l = Layout (@t_size _ MEL) (@t_align _ MEL).
  Proof. intros H. apply padded_spec in H; [|lia]. exact H. Qed.
  Lemma master_pos : 0 < @t_size _ MEL.
  Proof. exact box_elem_pos. Qed.

  Lemma urc_try_new_ok d (w : world (ublock T)) x sc l :
    cur_scope w = Some sc -> struct_layout (16 + t_size) (N.max 8 t_align) l ->
    e_aok (ncalls w) (l_size l) = true -> e_aok (S (ncalls w)) 56 = true ->
    let s1 := Selector MNone mn in let a1 := e_alloc_for sc s1 in
    let s2 := Selector MNone t_name in let a2 := e_alloc_for sc s2 in
    let m := SPtr (Blk (next_id w)) 1 a1 MNone in
    urc_try_new mn fn x (d, w) =
      (Ret (Ok (UrcP (SPtr (Blk (next_id w + 1)) 1 a2 MNone) (Blk (next_id w)))),
       (d, World (<[next_id w + 1 := Block a2 (Layout 56 8) [Some (UFence 1 0 m)]]>
                   (<[next_id w := Block a1 l [Some (UMaster 1 0 (Val x))]]> (heap w)))
             (next_id w + 1 + 1) (S (S (ncalls w)))
             ((events w ++ asked sc s1 a1 l (Some (next_id w))) ++ asked sc s2 a2 (Layout 56 8) (Some (next_id w + 1)))
             (drops w) (cur_scope w))).
  Proof.
    intros Hc Hl H1 H2 s1 a1 s2 a2 m. apply master_layout in Hl as ->. unfold urc_try_new.
    erewrite bind_Ret.
    2: { apply on_snd_Ret. by apply (alloc_val_ok (EB:=MEL) master_pos). }
    cbv iota beta. erewrite bind_Ret.
    2: { apply on_snd_Ret. by apply (alloc_val_ok (EB:=FEL)). }
    done.
  Qed.
  Lemma urc_try_new_refused d (w : world (ublock T)) x sc l :
    cur_scope w = Some sc -> struct_layout (16 + t_size) (N.max 8 t_align) l -> e_aok (ncalls w) (l_size l) = false ->
    let s1 := Selector MNone mn in let a1 := e_alloc_for sc s1 in
    urc_try_new mn fn x (d, w) =
      (Ret (Err AllocErr),
       (d, World (heap w) (next_id w) (S (ncalls w)) (events w ++ asked sc s1 a1 l None)
             (drops w ++ [UMaster 1 0 (Val x)]) (cur_scope w))).
  Proof.
    intros Hc Hl H1 s1 a1. apply master_layout in Hl as ->. unfold urc_try_new.
    erewrite bind_Ret; [|apply on_snd_Ret; by apply (alloc_val_refused (EB:=MEL) master_pos)]. done.
  Qed.
  Lemma urc_try_new_refused2 d (w : world (ublock T)) x sc l :
    cur_scope w = Some sc -> struct_layout (16 + t_size) (N.max 8 t_align) l ->
    e_aok (ncalls w) (l_size l) = true -> e_aok (S (ncalls w)) 56 = false ->
    let s1 := Selector MNone mn in let a1 := e_alloc_for sc s1 in
    let s2 := Selector MNone t_name in let a2 := e_alloc_for sc s2 in
    let m := SPtr (Blk (next_id w)) 1 a1 MNone in
    urc_try_new mn fn x (d, w) =
      (Ret (Err AllocErr),
       (d, World (<[next_id w := Block a1 l [Some (UMaster 1 0 (Val x))]]> (heap w))
             (next_id w + 1) (S (S (ncalls w)))
             ((events w ++ asked sc s1 a1 l (Some (next_id w))) ++ asked sc s2 a2 (Layout 56 8) None)
             (drops w ++ [UFence 1 0 m]) (cur_scope w))).
  Proof.
    intros Hc Hl H1 H2 s1 a1 s2 a2 m. apply master_layout in Hl as ->. unfold urc_try_new.
    erewrite bind_Ret.
    2: { apply on_snd_Ret. by apply (alloc_val_ok (EB:=MEL) master_pos). }
    cbv iota beta. erewrite bind_Ret.
    2: { apply on_snd_Ret. by apply (alloc_val_refused (EB:=FEL)). }
    done.
  Qed.
End shared_new.

(** * C86 *)

(** [Rc::new]: one new block, from the allocator selected for the type, of the right layout, with counts one and
    zero and the value; the pointer shows it; nothing else changes. *)
Lemma p_C86_rc : forall (EN : Env) (T : Type) (EL : Elem T) d (w : world (rcbox T)) x sc l,
  fresh_ids w -> cur_scope w = Some sc -> struct_layout (16 + t_size) (N.max 8 t_align) l ->
  e_aok (ncalls w) (l_size l) = true ->
  let s := Selector MNone t_name in let a := e_alloc_for sc s in
  exists p b w', rc_new x (d, w) = (Ret p, (d, w')) /\ sp_ptr p = Blk b /\ sp_alloc p = a /\ sp_mark p = MNone /\
    one_new w w' b a l (RcBox 1 0 (Val x)) /\ events w' = events w ++ asked sc s a l (Some b) /\
    rc_as_ref p (d, w') = (Ret x, (d, w')) /\
    rc_strong_count p (d, w') = (Ret 1, (d, w')) /\ rc_weak_count p (d, w') = (Ret 0, (d, w')).
Proof.
  intros EN T EL d w x sc l Hf Hc Hl Ha s a. do 3 eexists. rewrite rc_new_arc_new. unfold arc_new.
  erewrite bind_Ret by (by apply (arc_try_new_ok d w x sc l)). split; [reflexivity|].
  split; [done|]. split; [done|]. split; [done|]. split; [split; [apply Hf; lia|done]|]. split; [done|].
  assert (Hr : forall w', heap w' !! next_id w = Some (Block a l [Some (RcBox 1 0 (Val x))]) ->
    rc_inner (SPtr (Blk (next_id w)) 1 a MNone) (d, w') = (Ret (RcBox 1 0 (Val x)), (d, w'))).
  { intros w' Hw. unfold rc_inner. apply on_snd_Ret. eapply (read_one (EB:=rcbox_elem EL)); [apply box_elem_pos|done]. }
  split_and!; unfold rc_as_ref, rc_strong_count, rc_weak_count;
    (erewrite bind_Ret; [|apply Hr; simpl; by rewrite lookup_insert]); done.
Qed.
Lemma x_C86_rc_ex :
  fresh_ids (World (T:=rcbox N) ∅ 3 0 [] [] (Some 7)) /\ struct_layout (16 + @t_size N num) (N.max 8 (@t_align N num)) (Layout 24 8) /\
  exists p w, @rc_new env_debug N num 42 ([], World ∅ 3 0 [] [] (Some 7)) = (Ret p, ([], w)) /\
    heap w !! 3 = Some (Block (sp_alloc p) (Layout 24 8) [Some (RcBox 1 0 (Val 42))]).
Proof.
  split; [done|]. split; [split_and!; try done; by exists 3|]. do 2 eexists. split; [by vm_compute|]. by vm_compute.
Qed.

(** [Arc::new] and [Arc::try_new]. *)
Lemma p_C86_arc : forall (EN : Env) (T : Type) (EL : Elem T) d (w : world (rcbox T)) x sc l,
  fresh_ids w -> cur_scope w = Some sc -> struct_layout (16 + t_size) (N.max 8 t_align) l ->
  e_aok (ncalls w) (l_size l) = true ->
  let s := Selector MNone t_name in let a := e_alloc_for sc s in
  exists p b w', arc_try_new x (d, w) = (Ret (Ok p), (d, w')) /\ arc_new x (d, w) = (Ret p, (d, w')) /\
    sp_ptr p = Blk b /\ sp_alloc p = a /\ sp_mark p = MNone /\
    one_new w w' b a l (RcBox 1 0 (Val x)) /\ events w' = events w ++ asked sc s a l (Some b).
Proof.
  intros EN T EL d w x sc l Hf Hc Hl Ha s a. do 3 eexists. unfold arc_new, bind.
  rewrite (arc_try_new_ok d w x sc l) by done. split_and!; try done. split; [apply Hf; lia|done].
Qed.
Lemma x_C86_arc_ex :
  struct_layout (16 + @t_size N num) (N.max 8 (@t_align N num)) (Layout 24 8) /\
  exists p w, @arc_new env_debug N num 42 ([], World ∅ 3 0 [] [] (Some 7)) = (Ret p, ([], w)) /\
    heap w !! 3 = Some (Block (sp_alloc p) (Layout 24 8) [Some (RcBox 1 0 (Val 42))]).
Proof. split; [split_and!; try done; by exists 3|]. do 2 eexists. split; [by vm_compute|]. by vm_compute. Qed.

(** [Urc::new] and [Urc::try_new]: a master with one strong fence and the value, and a fence with one strong
    reference that owns the pointer to the master; the new pointer shows the value and the counts. *)
Lemma p_C86_urc : forall (EN : Env) (T : Type) (EL : Elem T) mn fn d (w : world (ublock T)) x sc l,
  fresh_ids w -> cur_scope w = Some sc -> struct_layout (16 + t_size) (N.max 8 t_align) l ->
  e_aok (ncalls w) (l_size l) = true -> e_aok (S (ncalls w)) 56 = true ->
  let s1 := Selector MNone mn in let a1 := e_alloc_for sc s1 in
  let s2 := Selector MNone t_name in let a2 := e_alloc_for sc s2 in
  exists u m b c w1 w', urc_try_new mn fn x (d, w) = (Ret (Ok u), (d, w')) /\ urc_new mn fn x (d, w) = (Ret u, (d, w')) /\
    one_new w w1 b a1 l (UMaster 1 0 (Val x)) /\ one_new w1 w' c a2 (Layout 56 8) (UFence 1 0 m) /\
    sp_ptr m = Blk b /\ sp_alloc m = a1 /\ sp_mark m = MNone /\
    sp_ptr (up_fence u) = Blk c /\ sp_alloc (up_fence u) = a2 /\ sp_mark (up_fence u) = MNone /\
    events w' = events w ++ asked sc s1 a1 l (Some b) ++ asked sc s2 a2 (Layout 56 8) (Some c) /\
    urc_deref mn u (d, w') = (Ret x, (d, w')) /\ urc_fence_counts fn u (d, w') = (Ret (1, 0), (d, w')) /\
    urc_is_sole mn fn u (d, w') = (Ret true, (d, w')).
Proof.
  intros EN T EL mn fn d w x sc l Hf Hc Hl H1 H2 s1 a1 s2 a2.
  set (m := SPtr (Blk (next_id w)) 1 a1 MNone).
  set (w1 := World (<[next_id w := Block a1 l [Some (UMaster 1 0 (Val x))]]> (heap w)) 0 0 [] [] None).
  exists (UrcP (SPtr (Blk (next_id w + 1)) 1 a2 MNone) (Blk (next_id w))), m, (next_id w), (next_id w + 1), w1.
  pose proof (urc_try_new_ok mn fn d w x sc l Hc Hl H1 H2) as He. cbv zeta in He. fold s1 a1 s2 a2 m in He.
  eexists. split; [exact He|]. split; [unfold urc_new, bind; by rewrite He|].
  split; [split; [apply Hf; lia|done]|].
  split; [split; [simpl; rewrite lookup_insert_ne by lia; apply Hf; lia|done]|].
  do 6 (split; [done|]). split; [simpl; by rewrite <-app_assoc|].
  unfold urc_deref, urc_fence_counts, urc_is_sole. simpl up_data. simpl up_fence. simpl sp_ptr.
  match goal with |- context [(d, ?w')] => set (ww := w') end.
  assert (Hm : on_snd (read_at (Elem0:=master_elem EL mn) (Blk (next_id w)) 0) (d, ww) = (Ret (UMaster 1 0 (Val x)), (d, ww))).
  { apply on_snd_Ret. eapply (read_one (EB:=master_elem EL mn)); [apply box_elem_pos|].
    unfold ww. simpl. rewrite lookup_insert_ne by lia. apply lookup_insert. }
  assert (Hn : on_snd (read_at (Elem0:=fence_elem T fn) (Blk (next_id w + 1)) 0) (d, ww) = (Ret (UFence 1 0 m), (d, ww))).
  { apply on_snd_Ret. eapply (read_one (EB:=fence_elem T fn)); [done|].
    unfold ww. simpl. apply lookup_insert. }
  split_and!.
  - by erewrite bind_Ret by exact Hm.
  - by erewrite bind_Ret by exact Hn.
  - erewrite bind_Ret by exact Hn. cbv iota beta. simpl sp_ptr. by erewrite bind_Ret by exact Hm.
Qed.
Lemma x_C86_urc_ex :
  struct_layout (16 + @t_size N num) (N.max 8 (@t_align N num)) (Layout 24 8) /\
  exists u w, @urc_new env_debug N num 50 60 42 ([], World ∅ 3 0 [] [] (Some 7)) = (Ret u, ([], w)) /\
    up_data u = Blk 3 /\ sp_ptr (up_fence u) = Blk 4 /\ is_Some (heap w !! 3) /\ is_Some (heap w !! 4).
Proof.
  split; [split_and!; try done; by exists 3|]. do 2 eexists. split; [by vm_compute|].
  split_and!; try done; by eexists.
Qed.

(** [Fence::into_urc]: the fence moves into new memory unchanged; the new pointer shows the value of its master. *)
Lemma p_C86_into_urc : forall (EN : Env) (T : Type) (EL : Elem T) mn fn d (w : world (ublock T)) x sc n k nf kf m b bl,
  fresh_ids w -> cur_scope w = Some sc -> e_aok (ncalls w) 56 = true ->
  sp_ptr m = Blk b -> heap w !! b = Some bl -> b_slots bl = [Some (UMaster nf kf (Val x))] ->
  let s := Selector MNone fn in let a := e_alloc_for sc s in
  exists u c w', fence_into_urc fn n k m (d, w) = (Ret u, (d, w')) /\
    one_new w w' c a (Layout 56 8) (UFence n k m) /\
    sp_ptr (up_fence u) = Blk c /\ sp_alloc (up_fence u) = a /\ sp_mark (up_fence u) = MNone /\
    events w' = events w ++ asked sc s a (Layout 56 8) (Some c) /\
    urc_deref mn u (d, w') = (Ret x, (d, w')) /\ urc_fence_counts fn u (d, w') = (Ret (n, k), (d, w')).
Proof.
  intros EN T EL mn fn d w x sc n k nf kf m b bl Hf Hc Ha Hm Hb Hs s a.
  exists (UrcP (SPtr (Blk (next_id w)) 1 a MNone) (sp_ptr m)), (next_id w).
  assert (He : box_new (Elem0:=fence_elem T fn) (UFence n k m) w =
    (Ret (SPtr (Blk (next_id w)) 1 a MNone),
     World (<[next_id w := Block a (Layout 56 8) [Some (UFence n k m)]]> (heap w)) (next_id w + 1) (S (ncalls w))
         (events w ++ asked sc s a (Layout 56 8) (Some (next_id w))) (drops w) (cur_scope w))).
  { unfold box_new, box_new_with. erewrite bind_Ret by (by apply (alloc_val_ok (EB:=fence_elem T fn))). done. }
  eexists. split.
  { unfold fence_into_urc. by erewrite bind_Ret by (by apply on_snd_Ret, He). }
  split; [split; [apply Hf; lia|done]|]. do 4 (split; [done|]).
  assert (b <> next_id w) by (intros ->; rewrite Hf in Hb by lia; done).
  unfold urc_deref, urc_fence_counts. simpl up_data. simpl up_fence. simpl sp_ptr. rewrite Hm. destruct bl as [? ? ?]. simpl in Hs. subst.
  split.
  - erewrite bind_Ret.
    2: { apply on_snd_Ret; eapply (read_one (EB:=master_elem EL mn)); [apply box_elem_pos|].
         simpl. rewrite lookup_insert_ne by done. exact Hb. }
    done.
  - erewrite bind_Ret.
    2: { apply on_snd_Ret; eapply (read_one (EB:=fence_elem T fn)); [done|]. simpl. apply lookup_insert. }
    done.
Qed.
Lemma x_C86_into_urc_ex :
  let w := World {[3 := Block 1 (Layout 24 8) [Some (UMaster 1 0 (Val 42))]]} 4 1 [] [] (Some 7) in
  fresh_ids w /\ sp_ptr (SPtr (Blk 3) 1 1 MNone) = Blk 3 /\ is_Some (heap w !! 3) /\
  exists u w', @fence_into_urc env_debug N 60 1 0 (SPtr (Blk 3) 1 1 MNone) ([], w) = (Ret u, ([], w')) /\ up_data u = Blk 3.
Proof.
  split. { intros b Hb. cbn [heap next_id] in *. by rewrite lookup_singleton_ne by lia. }
  split; [done|]. split; [by eexists|]. do 2 eexists. split; [by vm_compute|done].
Qed.

(** * C87 *)

(** A refused creation: [Rc::new] and [Arc::new] panic, [Arc::try_new] returns an error, no memory is taken. *)
Lemma p_C87_refused_partial : forall (EN : Env) (T : Type) (EL : Elem T) d (w : world (rcbox T)) x sc l,
  cur_scope w = Some sc -> struct_layout (16 + t_size) (N.max 8 t_align) l -> e_aok (ncalls w) (l_size l) = false ->
  exists st, rc_new x (d, w) = (Panic PUnwrap, st) /\ arc_new x (d, w) = (Panic PUnwrap, st) /\
    arc_try_new x (d, w) = (Ret (Err AllocErr), st) /\ heap (snd st) = heap w.
Proof.
  intros EN T EL d w x sc l Hc Hl Ha. eexists. rewrite rc_new_arc_new. unfold arc_new, bind.
  rewrite (arc_try_new_refused d w x sc l) by done. done.
Qed.
Lemma x_C87_refused_ex :
  struct_layout (16 + @t_size N num_drop) (N.max 8 (@t_align N num_drop)) (Layout 24 8) /\
  @e_aok (env_refusing 0) 0 24 = false /\
  fst (@rc_new (env_refusing 0) N num_drop 42 ([], World ∅ 3 0 [] [] (Some 7))) = Panic PUnwrap.
Proof. split; [split_and!; try done; by exists 3|]. split; by vm_compute. Qed.

(** [Urc::try_new]: an error; memory that existed before is as before; the values of the caller are not destroyed
    twice or early (nothing is destroyed). *)
Lemma p_C87_urc_partial : forall (EN : Env) (T : Type) (EL : Elem T) mn fn d (w : world (ublock T)) x sc l,
  fresh_ids w -> cur_scope w = Some sc -> struct_layout (16 + t_size) (N.max 8 t_align) l ->
  e_aok (ncalls w) (l_size l) && e_aok (S (ncalls w)) 56 = false ->
  exists st, urc_try_new mn fn x (d, w) = (Ret (Err AllocErr), st) /\ urc_new mn fn x (d, w) = (Panic PUnwrap, st) /\
    fst st = d /\ heap w ⊆ heap (snd st) /\ (e_aok (ncalls w) (l_size l) = false -> heap (snd st) = heap w).
Proof.
  intros EN T EL mn fn d w x sc l Hf Hc Hl Ha. unfold urc_new, bind.
  destruct (e_aok (ncalls w) (l_size l)) eqn:E1.
  - eexists. rewrite (urc_try_new_refused2 mn fn d w x sc l) by done. split_and!; try done.
    simpl. apply insert_subseteq, Hf. lia.
  - eexists. rewrite (urc_try_new_refused mn fn d w x sc l) by done. split_and!; done.
Qed.
Lemma x_C87_urc_ex :
  struct_layout (16 + @t_size N num) (N.max 8 (@t_align N num)) (Layout 24 8) /\
  @e_aok (env_refusing 1) 0 24 && @e_aok (env_refusing 1) 1 56 = false /\
  fst (@urc_try_new (env_refusing 1) N num 50 60 42 ([], World ∅ 3 0 [] [] (Some 7))) = Ret (Err AllocErr).
Proof. split; [split_and!; try done; by exists 3|]. split; by vm_compute. Qed.

(** Without an environment: a panic, no memory taken. *)
Lemma p_C87_no_environment_partial : forall (EN : Env) (T : Type) (EL : Elem T) mn fn d (w : world (rcbox T)) (w2 : world (ublock T)) x,
  cur_scope w = None -> cur_scope w2 = None ->
  (exists st, rc_new x (d, w) = (Panic PNoEnv, st) /\ arc_new x (d, w) = (Panic PNoEnv, st) /\
     arc_try_new x (d, w) = (Panic PNoEnv, st) /\ heap (snd st) = heap w) /\
  exists st, urc_new mn fn x (d, w2) = (Panic PNoEnv, st) /\ urc_try_new mn fn x (d, w2) = (Panic PNoEnv, st) /\ heap (snd st) = heap w2.
Proof.
  intros EN T EL mn fn d w w2 x Hc Hc2. split.
  - exists (d, add_drop (RcBox 1 0 (Val x)) w). rewrite rc_new_arc_new. unfold arc_new, arc_try_new, on_snd, bind. simpl snd.
    rewrite (alloc_val_no_env (EB:=rcbox_elem EL)) by done. done.
  - exists (d, add_drop (UMaster 1 0 (Val x)) w2). unfold urc_new, urc_try_new, on_snd, bind. simpl snd.
    rewrite (alloc_val_no_env (EB:=master_elem EL mn)) by done. done.
Qed.
Lemma x_C87_no_environment_ex :
  fst (@rc_new env_debug N num_drop 42 ([], World ∅ 3 0 [] [] None)) = Panic PNoEnv /\
  fst (@urc_new env_debug N num_drop 50 60 42 ([], World ∅ 3 0 [] [] None)) = Panic PNoEnv.
Proof. split; by vm_compute. Qed.

(** The value given to a refused creation is gone: it is not returned, not in memory and never destroyed. *)
Lemma p_C87_value_refuted : forall (EN : Env) (T : Type) (EL : Elem T) d (w : world (rcbox T)) x sc l,
  cur_scope w = Some sc -> struct_layout (16 + t_size) (N.max 8 t_align) l -> e_aok (ncalls w) (l_size l) = false ->
  exists w', arc_try_new x (d, w) = (Ret (Err AllocErr), (d, w')) /\ rc_new x (d, w) = (Panic PUnwrap, (d, w')) /\
    heap w' = heap w.
Proof.
  intros EN T EL d w x sc l Hc Hl Ha. eexists. rewrite rc_new_arc_new. unfold arc_new, bind.
  rewrite (arc_try_new_refused d w x sc l) by done. done.
Qed.
Lemma x_C87_value_ex :
  @t_needs_drop N num_drop = true /\
  fst (snd (@rc_new (env_refusing 0) N num_drop 42 ([], World ∅ 3 0 [] [] (Some 7)))) = [].
Proof. split; by vm_compute. Qed.

(** When only the second allocation of [Urc::try_new] is refused, the first block stays allocated for ever: no
    pointer to it is returned. *)
Lemma p_C87_urc_leak_refuted : forall (EN : Env) (T : Type) (EL : Elem T) mn fn d (w : world (ublock T)) x sc l,
  fresh_ids w -> cur_scope w = Some sc -> struct_layout (16 + t_size) (N.max 8 t_align) l ->
  e_aok (ncalls w) (l_size l) = true -> e_aok (S (ncalls w)) 56 = false ->
  exists b a w', urc_try_new mn fn x (d, w) = (Ret (Err AllocErr), (d, w')) /\
    one_new w w' b a l (UMaster 1 0 (Val x)).
Proof.
  intros EN T EL mn fn d w x sc l Hf Hc Hl H1 H2. exists (next_id w), (e_alloc_for sc (Selector MNone mn)). eexists.
  rewrite (urc_try_new_refused2 mn fn d w x sc l) by done. split; [reflexivity|]. split; [apply Hf; lia|done].
Qed.
Lemma x_C87_urc_leak_ex :
  @e_aok (env_refusing 1) 0 24 = true /\ @e_aok (env_refusing 1) 1 56 = false /\
  heap (snd (snd (@urc_try_new (env_refusing 1) N num 50 60 42 ([], World ∅ 3 0 [] [] (Some 7))))) <> ∅.
Proof.
  split; [by vm_compute|]. split; [by vm_compute|]. intros H. apply (f_equal (lookup 3)) in H. by vm_compute in H.
Qed.
