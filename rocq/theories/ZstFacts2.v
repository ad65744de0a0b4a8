(** Property C118: compaction, iteration, conversion and destruction of [Vec]s of zero-sized elements;
    C117: compaction and conversion of [SmallVec]s of them. *)
From Verif Require Export ZstComp2 Witness.
From Coq Require Import ZifyBool ZifyNat ZifyN.

(** * C118 *)

(** [retain] keeps and destroys exactly what the predicate says, its state threaded in order, of the
    contents without their second element when the first is accepted (that element is skipped, as
    for other element types); the allocator is not called and the pointer stays. *)
Lemma p_C118_retain_partial : forall (EN : Env) (T : Type) (EL : Elem T) v (w : world T) xs
    (St : Type) (f : St -> T -> St * bool) st,
  t_size = 0 -> (forall x y : T, x = y) -> no_drop_panic -> v_len v = llen xs -> llen xs <= usize_max ->
  let '(st', k, d) := retained f st (match xs with
        | x :: _ :: zs => if snd (f st x) then x :: zs else xs
        | _ => xs end) in
  exists v' w',
    retain (fun st x => let '(st', b) := f st x in (st', Some b)) st (v, w) = (Ret st', (v', w')) /\
    v_ptr v' = v_ptr v /\ v_len v' = llen k /\
    heap w' = heap w /\ ncalls w' = ncalls w /\ drops w' = drops w ++ d.
Proof.
  intros EN T EL v w xs St f st Hz Hu Hnd Hl Hb.
  pose proof (zc_retain Hz (fun x => Hu x t_zst) f st v w xs Hnd (conj Hl Hb)) as H.
  destruct (retained f st _) as [[st' k] d]. eexists _, _. split; [exact H|].
  split_and!; try done; [by rewrite heap_add_drops|by rewrite ncalls_add_drops|by rewrite drops_add_drops].
Qed.
Lemma x_C118_retain_ex :
  let st := @demo env_debug unit zst wz_start [OPush tt; OPush tt; OPush tt; OPush tt; OPush tt] in
  let r := @retain env_debug unit vec (@vec_vecx env_debug unit zst) nat (fun n _ => (S n, Some (Nat.odd n))) 0%nat st in
  v_len (fst st) = 5 /\ fst r = Ret 5%nat /\ v_len (fst (snd r)) = 2.
Proof. vm_compute. split_and!; reflexivity. Qed.

(** [dedup] leaves the heads of the runs of the same list without its second element. *)
Lemma p_C118_dedup_partial : forall (EN : Env) (T : Type) (EL : Elem T) v (w : world T) xs
    (same : T -> T -> bool),
  t_size = 0 -> (forall x y : T, x = y) -> no_drop_panic -> v_len v = llen xs -> llen xs <= usize_max ->
  exists v' w' k d,
    dedup same (v, w) = (Ret tt, (v', w')) /\
    runs (fun a b => same b a) (match xs with x :: _ :: zs => x :: zs | _ => xs end) k d /\
    v_ptr v' = v_ptr v /\ v_len v' = llen k /\
    heap w' = heap w /\ ncalls w' = ncalls w /\ drops w' = drops w ++ d.
Proof.
  intros EN T EL v w xs same Hz Hu Hnd Hl Hb.
  destruct (zc_dedup Hz (fun x => Hu x t_zst) same v w xs Hnd (conj Hl Hb)) as (k&d&He&Hr).
  eexists _, _, k, d. split; [exact He|].
  split_and!; try done; [by rewrite heap_add_drops|by rewrite ncalls_add_drops|by rewrite drops_add_drops].
Qed.
Lemma x_C118_dedup_ex :
  let st := @demo env_debug unit zst wz_start [OPush tt; OPush tt; OPush tt; OPush tt] in
  let r := @dedup env_debug unit vec (@vec_vecx env_debug unit zst) (fun _ _ => true) st in
  v_len (fst st) = 4 /\ fst r = Ret tt /\ v_len (fst (snd r)) = 1 /\ drops (snd (snd r)) = [tt; tt].
Proof. vm_compute. split_and!; reflexivity. Qed.

(** Taking from both ends of the consuming iterator: as from a list; nothing is destroyed. *)
Lemma p_C118_into_iter_partial : forall (EN : Env) (T : Type) (EL : Elem T) v (w : world T) xs cs,
  t_size = 0 -> (forall x y : T, x = y) -> v_len v = llen xs -> llen xs <= usize_max -> deque_ok cs xs ->
  exists v' n,
    it_run cs (vec_into_iter v, w) = (Ret <$> fst (deque cs xs), (IntoIter v' n, w)) /\
    v_ptr v' = v_ptr v /\ v_len v' = n + llen (snd (deque cs xs)).
Proof.
  intros EN T EL v w xs cs Hz Hu Hl Hb Hok.
  destruct (zc_it_run Hz (fun x => Hu x t_zst) cs v 0 w xs) as (v'&n&He&Hp&Hn&_); [lia|lia|done|].
  by exists v', n.
Qed.
Lemma x_C118_into_iter_ex :
  let st := @demo env_debug unit zst wz_start [OPush tt; OPush tt] in
  deque_ok [true; false; true] [tt; tt] /\ v_len (fst st) = llen [tt; tt] /\
  fst (@it_run env_debug unit zst [true; false; true] (vec_into_iter (fst st), snd st))
    = [Ret (Some tt); Ret (Some tt); Ret None].
Proof. split; [by repeat split|]. vm_compute. split_and!; reflexivity. Qed.

(** A predicate that accepts everything still loses an element, which is never destroyed. *)
Lemma p_C118_retain_refuted : forall (EN : Env) (T : Type) (EL : Elem T) v (w : world T),
  t_size = 0 -> (forall x y : T, x = y) -> no_drop_panic -> 2 <= v_len v -> v_len v <= usize_max ->
  exists v' w',
    retain (fun (st : unit) (x : T) => (st, Some true)) tt (v, w) = (Ret tt, (v', w')) /\
    v_len v' = v_len v - 1 /\ drops w' = drops w.
Proof.
  intros EN T EL v w Hz Hu Hnd H2 Hb.
  pose proof (p_C118_retain_partial EN T EL v w (replicate (N.to_nat (v_len v)) t_zst) unit
    (fun st _ => (st, true)) tt Hz Hu Hnd) as H.
  rewrite replicate_length, N2Nat.id in H. specialize (H eq_refl Hb).
  destruct (N.to_nat (v_len v)) as [|[|n]] eqn:E; [lia|lia|]. cbn [replicate snd] in H.
  assert (forall ys : list T, retained (fun (st : unit) (_ : T) => (st, true)) tt ys = (tt, ys, [])) as Hall.
  { induction ys as [|y ys IH]; [done|]. simpl. by rewrite IH. }
  rewrite Hall in H. destruct H as (v'&w'&He&_&Hv&_&_&Hd). exists v', w'. split; [exact He|].
  rewrite Hd, app_nil_r. split; [|done]. rewrite Hv. cbn [length]. rewrite replicate_length. lia.
Qed.
Lemma x_C118_retain_bad_ex :
  let st := @demo env_debug unit zst wz_start [OPush tt; OPush tt; OPush tt] in
  @t_size unit zst = 0 /\ v_len (fst st) = 3.
Proof. vm_compute. split_and!; reflexivity. Qed.

(** However a vector from [new] was used, dropping it, and dropping its consuming iterator after any
    calls, releases a pointer that was never allocated. *)
Lemma p_C118_drop_refuted : forall (EN : Env) (T : Type) (EL : Elem T) (w : world T) v0 w0 ops outs v w1,
  t_size = 0 -> (forall x y : T, x = y) -> no_drop_panic ->
  vec_new w = (Ret v0, w0) -> vrun ops (v0, w0) = (outs, (v, w1)) ->
  fst (vec_drop_val v w1) = UB Dangling_access /\
  (forall cs (xs : list T) os i w2, v_len v = llen xs -> llen xs <= usize_max -> deque_ok cs xs ->
    it_run cs (vec_into_iter v, w1) = (os, (i, w2)) -> fst (it_drop (i, w2)) = UB Dangling_access).
Proof.
  intros EN T EL w v0 w0 ops outs v w1 Hz Hu Hnd Hn Hr.
  assert (vdata v = Dangling) as Hv.
  { pose proof (fp_vrun Hz ops v0 w0) as Hp. rewrite Hr in Hp. simpl in Hp.
    unfold vdata. rewrite Hp. by apply (zc_new_dangling w _ w0). }
  split; [by apply (z_drop Hz (fun x => Hu x t_zst))|].
  intros cs xs os i w2 Hl Hb Hok Hi.
  destruct (zc_it_run Hz (fun x => Hu x t_zst) cs v 0 w1 xs) as (v'&n&He&Hp&Hn'&_); [lia|lia|done|].
  unfold vec_into_iter in Hi. rewrite He in Hi. injection Hi as _ <- <-.
  apply (zc_it_drop Hz (fun x => Hu x t_zst)); [done| |lia].
  unfold vdata in *. by rewrite Hp.
Qed.
Lemma x_C118_drop_ex :
  let st := @demo env_debug unit zst wz_start [OPush tt; OPush tt; OPop; OShrinkToFit] in
  @t_size unit zst = 0 /\ v_len (fst st) = llen [tt] /\ deque_ok [true] [tt] /\
  fst (@it_drop env_debug unit zst (snd (@it_run env_debug unit zst [true] (vec_into_iter (fst st), snd st))))
    = UB Dangling_access.
Proof. split; [vm_compute; reflexivity|]. split; [vm_compute; reflexivity|].
  split; [by repeat split|]. vm_compute. reflexivity. Qed.

(** [append] moves the elements and leaves the other vector empty; building from an array keeps all
    of its elements; neither calls the allocator nor destroys anything. *)
Lemma p_C118_append_partial : forall (EN : Env) (T : Type) (EL : Elem T) v o (w : world T),
  t_size = 0 -> v_len v + v_len o <= usize_max ->
  exists v' o', vec_append o (v, w) = (Ret o', (v', w)) /\
    v_len v' = v_len v + v_len o /\ v_len o' = 0 /\ v_ptr v' = v_ptr v /\ v_ptr o' = v_ptr o.
Proof.
  intros EN T EL v o w Hz Hb.
  pose proof (zc_append Hz v o w (replicate (N.to_nat (v_len v)) t_zst) (replicate (N.to_nat (v_len o)) t_zst)) as H.
  unfold zrep in H. rewrite app_length, !replicate_length, Nat2N.inj_add, !N2Nat.id in H.
  eexists _, _. split; [apply H; [split; lia|split; lia|lia]|]. done.
Qed.
Lemma x_C118_append_ex :
  let st := @demo env_debug unit zst wz_start [OPush tt; OPush tt] in
  fst (@vec_append env_debug unit zst (fst st) st) = Ret (Vec (v_ptr (fst st)) 0) /\
  v_len (fst (snd (@vec_append env_debug unit zst (fst st) st))) = 4.
Proof. vm_compute. split_and!; reflexivity. Qed.
Lemma p_C118_from_array_partial : forall (EN : Env) (T : Type) (EL : Elem T) (w : world T) l sc,
  t_size = 0 -> cur_scope w = Some sc -> llen l <= usize_max ->
  exists v w', vec_from_array l w = (Ret v, w') /\ v_len v = llen l /\
    heap w' = heap w /\ ncalls w' = ncalls w /\ drops w' = drops w.
Proof.
  intros EN T EL w l sc Hz Hs Hb. destruct (zc_from_array Hz l w sc Hs Hb) as (v&w'&?&?&_&?&?&?).
  by exists v, w'.
Qed.
Lemma x_C118_from_array_ex :
  cur_scope wz_start = Some 7 /\
  v_len <$> (match fst (@vec_from_array env_debug unit zst [tt; tt; tt] wz_start) with Ret v => Some v | _ => None end) = Some 3.
Proof. vm_compute. split_and!; reflexivity. Qed.

(** Turning a vector from [new] into a boxed slice loses its elements: the slice is empty, and none
    of them is destroyed. *)
Lemma p_C118_boxed_refuted : forall (EN : Env) (T : Type) (EL : Elem T) (w : world T) v0 w0 ops outs v w1,
  t_size = 0 -> vec_new w = (Ret v0, w0) -> vrun ops (v0, w0) = (outs, (v, w1)) -> v_len v <= usize_max ->
  exists b, vec_into_boxed_slice v w1 = (Ret b, w1) /\ sp_len b = 0.
Proof.
  intros EN T EL w v0 w0 ops outs v w1 Hz Hn Hr Hb. exists (v_ptr v). split.
  - apply (zc_into_boxed Hz v w1 (replicate (N.to_nat (v_len v)) t_zst)).
    split; rewrite replicate_length, N2Nat.id; done.
  - pose proof (fp_vrun Hz ops v0 w0) as Hp. rewrite Hr in Hp. simpl in Hp. rewrite Hp.
    unfold vec_new, vec_with_marker, alloc_for, bind in Hn. destruct (cur_scope w); [|done].
    by injection Hn as <- _.
Qed.
Lemma x_C118_boxed_ex :
  let st := @demo env_debug unit zst wz_start [OPush tt; OPush tt; OPush tt] in
  v_len (fst st) = 3 /\ fst (@vec_into_boxed_slice env_debug unit zst (fst st) (snd st)) = Ret (v_ptr (fst st)).
Proof. vm_compute. split_and!; reflexivity. Qed.

(** * C117 *)

Section aux.
  Context {EN : Env} {T : Type} {EL : Elem T} (Hz : t_size = 0) (Hu : forall x : T, x = t_zst).
  Lemma zst_slice_stack k m (w : world T) xs :
    sk_len k = llen xs -> sv_slice (SVec (Stack k) m) w = (Ret xs, w).
  Proof.
    intros Hl. unfold sv_slice, sv_as_slice. erewrite redirect_stack; [done|].
    unfold sk_as_slice. rewrite bind_get_fst, Hl, Nat2N.id. apply (sz_read_list Hz Hu).
  Qed.
  Lemma zst_slice_heap v m (w : world T) xs :
    v_len v = llen xs -> sv_slice (SVec (Heap v) m) w = (Ret xs, w).
  Proof.
    intros Hl. unfold sv_slice, sv_as_slice. erewrite redirect_heap; [done|].
    rewrite bind_get_fst. apply on_snd_Ret. unfold vec_as_slice. rewrite Hl, Nat2N.id.
    apply (z_read_list Hz Hu).
  Qed.
End aux.

(** [retain] and [dedup] of a [SmallVec], inline or spilled, do what they do for [Vec]; the contents stay
    where they are. *)
Lemma p_C117_retain_partial : forall (EN : Env) (T : Type) (EL : Elem T) (Cap : N) (s : svec T) (w : world T) xs
    (St : Type) (f : St -> T -> St * bool) st,
  t_size = 0 -> (forall x y : T, x = y) -> no_drop_panic -> Cap <= usize_max ->
  sv_len s = llen xs -> llen xs <= (if is_stack s then Cap else usize_max) ->
  let '(st', k, d) := retained f st (match xs with
        | x :: _ :: zs => if snd (f st x) then x :: zs else xs
        | _ => xs end) in
  exists s' w',
    sv_retain Cap (fun st x => let '(st', b) := f st x in (st', Some b)) st (s, w) = (Ret st', (s', w')) /\
    is_stack s' = is_stack s /\ sv_slice s' w' = (Ret k, w') /\
    heap w' = heap w /\ ncalls w' = ncalls w /\ drops w' = drops w ++ d.
Proof.
  intros EN T EL Cap s w xs St f st Hz Hu Hnd HC Hl Hb.
  pose proof (fun x => Hu x t_zst) as Hu'. destruct s as [[k0|v0] m]; simpl in Hl, Hb.
  - pose proof (zk_retain Cap HC Hz Hu' f st k0 w xs Hnd (conj Hl Hb)) as H.
    destruct (retained f st _) as [[st' k] d].
    eexists _, _. split; [by apply redirect_stack|]. split_and!; try done.
    + by apply (zst_slice_stack Hz Hu').
    + by rewrite heap_add_drops.
    + by rewrite ncalls_add_drops.
    + by rewrite drops_add_drops.
  - pose proof (zc_retain Hz Hu' f st v0 w xs Hnd (conj Hl Hb)) as H.
    destruct (retained f st _) as [[st' k] d].
    eexists _, _. split; [by apply redirect_heap|]. split_and!; try done.
    + by apply (zst_slice_heap Hz Hu').
    + by rewrite heap_add_drops.
    + by rewrite ncalls_add_drops.
    + by rewrite drops_add_drops.
Qed.
Lemma p_C117_dedup_partial : forall (EN : Env) (T : Type) (EL : Elem T) (Cap : N) (s : svec T) (w : world T) xs
    (same : T -> T -> bool),
  t_size = 0 -> (forall x y : T, x = y) -> no_drop_panic -> Cap <= usize_max ->
  sv_len s = llen xs -> llen xs <= (if is_stack s then Cap else usize_max) ->
  exists s' w' k d,
    sv_dedup Cap same (s, w) = (Ret tt, (s', w')) /\
    runs (fun a b => same b a) (match xs with x :: _ :: zs => x :: zs | _ => xs end) k d /\
    is_stack s' = is_stack s /\ sv_slice s' w' = (Ret k, w') /\
    heap w' = heap w /\ ncalls w' = ncalls w /\ drops w' = drops w ++ d.
Proof.
  intros EN T EL Cap s w xs same Hz Hu Hnd HC Hl Hb.
  pose proof (fun x => Hu x t_zst) as Hu'. destruct s as [[k0|v0] m]; simpl in Hl, Hb.
  - destruct (zk_dedup Cap HC Hz Hu' same k0 w xs Hnd (conj Hl Hb)) as (k&d&H&Hr).
    eexists _, _, k, d. split; [by apply redirect_stack|]. split_and!; try done.
    + by apply (zst_slice_stack Hz Hu').
    + by rewrite heap_add_drops.
    + by rewrite ncalls_add_drops.
    + by rewrite drops_add_drops.
  - destruct (zc_dedup Hz Hu' same v0 w xs Hnd (conj Hl Hb)) as (k&d&H&Hr).
    eexists _, _, k, d. split; [by apply redirect_heap|]. split_and!; try done.
    + by apply (zst_slice_heap Hz Hu').
    + by rewrite heap_add_drops.
    + by rewrite ncalls_add_drops.
    + by rewrite drops_add_drops.
Qed.
Lemma x_C117_compact_ex :
  let st := snd (@srun env_debug unit zst 4 (replicate 4 (SPush tt)) (sv_new 4, wz_start)) in
  let r := @sv_retain env_debug unit zst 4 nat (fun n _ => (S n, Some (Nat.odd n))) 0%nat st in
  let q := @sv_dedup env_debug unit zst 4 (fun _ _ => true) st in
  sv_len (fst st) = 4 /\ is_stack (fst st) = true /\ fst r = Ret 4%nat /\ sv_len (fst (snd r)) = 2 /\
  fst q = Ret tt /\ sv_len (fst (snd q)) = 1 /\ drops (snd (snd q)) = [tt; tt].
Proof. vm_compute. split_and!; reflexivity. Qed.

(** Building from an array that fits inline gives an empty vector: the elements are never destroyed, as
    for other element types (C37).  A larger array is held completely. *)
Lemma p_C117_from_array_refuted : forall (EN : Env) (T : Type) (EL : Elem T) (Cap : N) (w : world T) l,
  t_size = 0 -> llen l <= Cap ->
  exists s, sv_from_array Cap l w = (Ret s, w) /\ sv_slice s w = (Ret [], w) /\ sv_drop_val s w = (Ret tt, w).
Proof.
  intros EN T EL Cap w l Hz Hl. exists (sv_new Cap). unfold sv_from_array.
  rewrite (proj2 (N.leb_le _ _)) by done. unfold store_copy. rewrite Hz. done.
Qed.
Lemma p_C117_from_array_partial : forall (EN : Env) (T : Type) (EL : Elem T) (Cap : N) (w : world T) l sc,
  t_size = 0 -> (forall x y : T, x = y) -> cur_scope w = Some sc -> Cap < llen l -> llen l <= usize_max ->
  exists s w', sv_from_array Cap l w = (Ret s, w') /\ sv_slice s w' = (Ret l, w') /\
    heap w' = heap w /\ ncalls w' = ncalls w /\ drops w' = drops w.
Proof.
  intros EN T EL Cap w l sc Hz Hu Hs Hl Hb. pose proof (fun x => Hu x t_zst) as Hu'.
  destruct (zc_from_array Hz l w sc Hs Hb) as (v&w'&He&Hv&_&Hrest).
  exists (SVec (Heap v) MNone), w'. unfold sv_from_array. rewrite (proj2 (N.leb_gt _ _)) by done.
  erewrite bind_Ret by exact He. split; [done|]. split; [by apply (zst_slice_heap Hz Hu')|done].
Qed.
Lemma x_C117_from_array_ex :
  fst (@sv_from_array env_debug unit zst 4 [tt; tt] wz_start) = Ret (sv_new 4) /\
  cur_scope wz_start = Some 7 /\ 1 < llen [tt; tt] /\
  (match fst (@sv_from_array env_debug unit zst 1 [tt; tt] wz_start) with Ret s => sv_len s | _ => 9 end) = 2.
Proof. split_and!; vm_compute; reflexivity. Qed.

(** [into_vec] of an inline vector keeps the elements; but like every [Vec] of zero-sized elements
    the result releases a dangling pointer when it is dropped. *)
Lemma p_C117_into_vec_refuted : forall (EN : Env) (T : Type) (EL : Elem T) (s : svec T) (w : world T) xs sc,
  t_size = 0 -> (forall x y : T, x = y) -> no_drop_panic -> cur_scope w = Some sc ->
  is_stack s = true -> sv_len s = llen xs -> llen xs <= usize_max ->
  exists v w', sv_into_vec s w = (Ret v, w') /\ vec_as_slice v w' = (Ret xs, w') /\
    heap w' = heap w /\ ncalls w' = ncalls w /\ drops w' = drops w /\
    fst (vec_drop_val v w') = UB Dangling_access.
Proof.
  intros EN T EL s w xs sc Hz Hu Hnd Hs Hst Hl Hb. pose proof (fun x => Hu x t_zst) as Hu'.
  destruct s as [[k|v] m]; [|done]. unfold sv_len in Hl. simpl in Hl.
  assert (exists v w', sv_move_to_heap (SVec (Stack k) m, w) = (Ret tt, (SVec (Heap v) m, w')) /\
    v_len v = llen xs /\ vdata v = Dangling /\ heap w' = heap w /\ ncalls w' = ncalls w /\ drops w' = drops w)
    as (v&w'&He&Hv&Hd&Hh&Hc&Hdr).
  { unfold sv_move_to_heap, sv_try_move_to_heap_and_reserve_exact. rewrite bind_assoc, bind_get_fst.
    simpl sv_store. cbn iota. rewrite Hl, bind_assoc, bind_uadd by lia. rewrite bind_assoc.
    unfold vec_try_with_capacity_and_marker. rewrite Hz, orb_true_r. eexists _, _. split.
    - erewrite bind_on_snd_Ret.
      2: { unfold vec_with_marker, alloc_for. unfold bind. rewrite Hs. reflexivity. }
      cbn beta iota. rewrite bind_assoc. erewrite bind_on_snd_Ret by reflexivity.
      rewrite bind_assoc. erewrite bind_Ret.
      2: { apply on_heap_eq. apply (z_set_len Hz). lia. }
      rewrite bind_ret. reflexivity.
    - simpl. by split_and!. }
  exists v, w'. split_and!; try done.
  - unfold sv_into_vec. by erewrite bind_Ret by (eapply with_local_Ret_s; exact He).
  - unfold vec_as_slice. rewrite Hv, Nat2N.id. apply (z_read_list Hz Hu').
  - by apply (z_drop Hz Hu').
Qed.
Lemma x_C117_into_vec_ex :
  let st := snd (@srun env_debug unit zst 4 (replicate 3 (SPush tt)) (sv_new 4, wz_start)) in
  @no_drop_panic unit zst /\ cur_scope (snd st) = Some 7 /\ is_stack (fst st) = true /\ sv_len (fst st) = llen [tt; tt; tt].
Proof. split; [done|]. vm_compute. split_and!; reflexivity. Qed.

(** [split_off] before the end of an inline vector whose tail fits the inline capacity of the result: head
    and tail; nothing is destroyed. *)
Lemma p_C117_split_off_partial : forall (EN : Env) (T : Type) (EL : Elem T) (Cap Len : N) (s : svec T) (w : world T) xs at_,
  t_size = 0 -> (forall x y : T, x = y) -> is_stack s = true -> sv_len s = llen xs -> llen xs <= Cap ->
  at_ < llen xs -> llen xs - at_ <= Len ->
  exists s' o, sv_split_off_into Cap Len at_ (s, w) = (Ret o, (s', w)) /\
    sv_slice s' w = (Ret (take (N.to_nat at_) xs), w) /\ sv_slice o w = (Ret (drop (N.to_nat at_) xs), w).
Proof.
  intros EN T EL Cap Len s w xs at_ Hz Hu Hst Hl Hc Ha HL. pose proof (fun x => Hu x t_zst) as Hu'.
  destruct s as [[k|v] m]; [|done]. unfold sv_len in Hl. simpl in Hl.
  exists (SVec (Stack (StackVec (sk_slots k) at_)) m),
    (SVec (Stack (StackVec (sk_slots (sk_new Len)) (llen xs - at_))) MNone).
  split_and!.
  - unfold sv_split_off_into. rewrite bind_get_fst.
    replace (sv_len (SVec (Stack k) m)) with (llen xs) by done. cbn [sv_store].
    rewrite (proj2 (N.ltb_lt _ _)) by done. rewrite bind_usub by lia.
    erewrite bind_on_snd_Ret.
    2: { unfold sv_with_capacity, sv_with_capacity_and_marker, sv_try_with_capacity_and_marker.
         rewrite (proj2 (N.ltb_ge _ _)) by done. reflexivity. }
    erewrite bind_on_snd_Ret.
    2: { unfold store_copy. rewrite Hz. reflexivity. }
    rewrite bind_usub by lia. replace (llen xs - (llen xs - at_)) with at_ by lia.
    erewrite bind_Ret by (apply redirect_stack, sz_set_len; lia).
    erewrite bind_on_snd_Ret.
    2: { eapply with_local_Ret_s. apply redirect_stack. by apply sz_set_len. }
    done.
  - apply (zst_slice_stack Hz Hu'). simpl. rewrite take_length. lia.
  - apply (zst_slice_stack Hz Hu'). simpl. rewrite drop_length. lia.
Qed.
Lemma x_C117_split_off_ex :
  let st := snd (@srun env_debug unit zst 4 (replicate 3 (SPush tt)) (sv_new 4, wz_start)) in
  is_stack (fst st) = true /\ sv_len (fst st) = llen [tt; tt; tt] /\
  (match fst (@sv_split_off_into env_debug unit zst 4 4 1 st) with Ret o => sv_len o | _ => 9 end) = 2.
Proof. vm_compute. split_and!; reflexivity. Qed.

(** A vector that is full: its length cannot grow beyond 2^64 - 1.  The calls that would make it longer panic,
    the vector is as it was and the element that was to be added is destroyed. *)
Lemma p_C118_full_partial : forall (EN : Env) (T : Type) (EL : Elem T) v (w : world T),
  t_size = 0 -> no_drop_panic ->
  (v_len v = usize_max -> forall x, vec_push x (v, w) = (Panic PCapacity, (v, add_drop x w))) /\
  (v_len v = usize_max -> forall i x, i <= v_len v -> vec_insert i x (v, w) = (Panic PCapacity, (v, add_drop x w))) /\
  (forall o, usize_max < v_len v + v_len o -> vec_append o (v, w) = (Panic PCapacity, (v, w))) /\
  (forall l, usize_max < v_len v + llen l -> vec_extend_from_slice l (v, w) = (Panic PCapacity, (v, w))).
Proof.
  intros EN T EL v w Hz Hn.
  assert (Hr : forall n, usize_max < v_len v + n -> vec_reserve_exact n (v, w) = (Panic PCapacity, (v, w))).
  { intros n Ho. unfold vec_reserve_exact, vec_try_reserve_exact, overflow_guarded_add, bind, get_fst. cbn [fst].
    rewrite (proj2 (N.leb_gt _ _)) by done. done. }
  assert (Hd : forall x, on_snd (drop_val x) (v, w) = (Ret tt, (v, add_drop x w))).
  { intros x. unfold on_snd, drop_val. cbn [snd fst]. by rewrite Hn, andb_false_r. }
  split_and!.
  - intros Hl x. unfold vec_push, on_unwind, bind. rewrite Hr by lia. by rewrite Hd.
  - intros Hl i x Hi. unfold vec_insert, on_unwind, assert, bind, get_fst. cbn [fst].
    rewrite (proj2 (N.leb_le _ _)) by done. cbn [ret]. rewrite (z_cap Hz), Hl, N.eqb_refl. rewrite Hr by lia. by rewrite Hd.
  - intros o Ho. unfold vec_append, bind. by rewrite Hr.
  - intros l Ho. unfold vec_extend_from_slice, bind. by rewrite Hr.
Qed.
Lemma x_C118_full_ex :
  let v := Vec (sp_dangling 1 MNone) usize_max in
  @t_size unit zst = 0 /\ fst (@vec_push env_release unit zst tt (v, wz_start)) = Panic PCapacity /\
  fst (@vec_insert env_release unit zst 3 tt (v, wz_start)) = Panic PCapacity /\
  fst (@vec_append env_release unit zst v (v, wz_start)) = Panic PCapacity.
Proof. vm_compute. split_and!; reflexivity. Qed.
