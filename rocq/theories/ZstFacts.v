(** Property C117: [SmallVec] of zero-sized elements. *)
From Verif Require Export SmallZst SmallFacts.
From Coq Require Import ZifyBool ZifyNat ZifyN.

(** * C117 *)

(** As long as everything fits inline (inline capacity at least 4, the growth step of zero-sized
    types) and [insert] and [move_to_heap] are not called: the history follows the list specification
    of [SmallVec] and nothing is refused; the contents stay inline, the allocator is never called,
    and dropping the vector destroys exactly the contents. *)
Lemma p_C117_inline_partial : forall (EN : Env) (T : Type) (EL : Elem T) (Cap : N) (w : world T) ops,
  t_size = 0 -> (forall x y : T, x = y) -> no_drop_panic ->
  4 <= Cap -> total_sdemand ops <= Cap -> Cap + N.max 1 (total_sdemand ops) <= usize_max ->
  Forall (fun op => match op with SInsert _ _ | SMoveToHeap => False | _ => True end) ops ->
  exists outs ins s w1 w2 xs ds ls,
    srun Cap ops (sv_new Cap, w) = (outs, (s, w1)) /\ strace False t_clone [] ops ins outs xs ds ls /\
    Forall (fun o => o.1 = true) outs /\ sv_slice s w1 = (Ret xs, w1) /\ sv_len s = llen xs /\
    heap w1 = heap w /\ ncalls w1 = ncalls w /\
    sv_drop_val s w1 = (Ret tt, w2) /\ heap w2 = heap w /\ ncalls w2 = ncalls w /\
    drops w2 = drops w ++ ds ++ xs.
Proof.
  intros EN T EL Cap w ops Hz Hu Hnd H4 Hd Hb Hc.
  destruct (sz_run Cap Hz (fun x => Hu x t_zst) ops (sv_new Cap) w [] (szrep_new Cap Hz))
    as (outs&ins&s&w1&xs&ds&ls&He&Ht&Hf&Hr&(H1&H2&H3&H5&H6)); [done|lia|simpl; lia|lia|done|].
  exists outs, ins, s, w1, (add_drops xs w1), xs, ds, ls. split_and!; try done.
  - unfold sv_slice. by rewrite (sz_slice Cap Hz (fun x => Hu x t_zst) _ _ _ Hr).
  - by eapply szrep_len.
  - by apply (sz_drop Cap Hz (fun x => Hu x t_zst)).
  - by rewrite heap_add_drops.
  - by rewrite ncalls_add_drops.
  - by rewrite drops_add_drops, H2, app_assoc.
Qed.
Lemma x_C117_inline_ex :
  let ops := [SPush tt; SPush tt; SExtendSlice [tt]; SAppend [tt]; SRemove 0; SSwapRemove 2; SPop; SIndex 3; SAsSlice] in
  total_sdemand ops <= 4 /\
  Forall (fun op : sop unit => match op with SInsert _ _ | SMoveToHeap => False | _ => True end) ops /\
  @sdemo_outs env_debug unit zst 4 wz_start ops =
    [(true, Ret RUnit); (true, Ret RUnit); (true, Ret RUnit); (true, Ret RUnit); (true, Ret (RVal tt));
     (true, Ret (RVal tt)); (true, Ret (ROpt (Some tt))); (true, Panic PUnwrap); (true, Ret (RList [tt]))].
Proof. split; [vm_compute; discriminate|]. split; [repeat constructor|vm_compute; reflexivity]. Qed.

(** One element more than fits inline can be pushed; the next push, and every later request for room,
    panics with a capacity overflow although a vector of zero-sized elements never needs memory; and
    dropping the vector releases a pointer that was never allocated. *)
Lemma p_C117_spill_refuted : forall (EN : Env) (T : Type) (EL : Elem T) (Cap : N) (w : world T) x sc,
  t_size = 0 -> (forall x y : T, x = y) -> no_drop_panic -> cur_scope w = Some sc ->
  4 <= Cap -> Cap + 1 <= usize_max ->
  exists outs s w1,
    srun Cap (replicate (N.to_nat (Cap + 1)) (SPush x)) (sv_new Cap, w) = (outs, (s, w1)) /\
    Forall (fun o => o.2 = Ret RUnit) outs /\ sv_len s = Cap + 1 /\ is_stack s = false /\
    sv_push Cap x (s, w1) = (Panic PCapacity, (s, add_drop x w1)) /\
    (forall n, 0 < n -> sv_reserve Cap n (s, w1) = (Panic PCapacity, (s, w1))) /\
    fst (sv_drop_val s w1) = UB Dangling_access.
Proof.
  intros EN T EL Cap w x sc Hz Hu Hnd Hsc H4 Hb.
  replace (N.to_nat (Cap + 1)) with (N.to_nat Cap + 1)%nat by lia. rewrite replicate_add.
  destruct (sz_pushes Cap Hz (fun x => Hu x t_zst) x (N.to_nat Cap) (sv_new Cap) w [] (replicate 1 (SPush x)) (szrep_new Cap Hz))
    as (s1&Hr1&He1); [done|simpl; lia|done|].
  destruct (sz_spill Cap Hz (fun x => Hu x t_zst) x s1 w _ sc Hr1) as (v&m&w'&He&Hl&Hd&_);
    [done|simpl; rewrite replicate_length; lia|done|done|].
  simpl in He1. erewrite !(bind_Ret _ _ _ _ _ He) in He1 by exact He. simpl in He1.
  eexists _, _, _. split; [exact He1|]. split; [|split; [done|split; [done|]]].
  - apply Forall_app. split; [by apply Forall_replicate|]. by repeat constructor.
  - split; [by apply sz_heap_push|]. split.
    + intros n Hn. unfold sv_reserve. by erewrite bind_Panic by (by apply sz_heap_try_reserve).
    + pose proof (z_drop Hz (fun x => Hu x t_zst) v w' Hnd Hd) as Hdr.
      unfold vec_drop_val in Hdr. unfold sv_drop_val, sv_drop, redirect. rewrite bind_get_fst. simpl.
      unfold on_heap. simpl. by destruct (vec_drop (v, w')) as [r [v' w'']].
Qed.
Lemma x_C117_spill_ex :
  @no_drop_panic unit zst /\ cur_scope wz_start = Some 7 /\
  @sdemo_outs env_debug unit zst 4 wz_start (replicate 6 (SPush tt)) =
    [(true, Ret RUnit); (true, Ret RUnit); (true, Ret RUnit); (true, Ret RUnit); (true, Ret RUnit);
     (false, Panic PCapacity)].
Proof. split; [done|]. split; vm_compute; reflexivity. Qed.

(** A spilled vector of zero-sized elements: the calls that ask for no room still follow the list
    specification and destroy exactly what it says; memory is never touched. *)
Lemma p_C117_heap_partial : forall (EN : Env) (T : Type) (EL : Elem T) (Cap : N) (v : vec) m (w : world T) xs ops,
  t_size = 0 -> (forall x y : T, x = y) -> no_drop_panic ->
  v_len v = llen xs -> llen xs <= usize_max ->
  Forall (fun op => match op with
    | SPop | SRemove _ | SSwapRemove _ | STruncate _ | SClear | SShrinkTo _ | SShrinkToFit
    | SIndex _ | SAssign _ _ | SGet _ | SAsSlice | SLen | SSetScope _ => True
    | _ => False end) ops ->
  exists outs ins v' w' xs' ds,
    srun Cap ops (SVec (Heap v) m, w) = (outs, (SVec (Heap v') m, w')) /\
    strace False t_clone xs ops ins outs xs' ds [] /\
    sv_slice (SVec (Heap v') m) w' = (Ret xs', w') /\ v_len v' = llen xs' /\
    heap w' = heap w /\ ncalls w' = ncalls w /\ drops w' = drops w ++ ds.
Proof.
  intros EN T EL Cap v m w xs ops Hz Hu Hnd Hl Hb Hc.
  destruct (szh_run Cap Hz (fun x => Hu x t_zst) ops v m w xs (conj Hl Hb) Hc Hnd)
    as (outs&ins&v'&w'&xs'&ds&He&Ht&[Hl' Hb']&(H1&H2&H3&H5&H6)).
  exists outs, ins, v', w', xs', ds. split_and!; try done.
  unfold sv_slice, sv_as_slice. erewrite redirect_heap; [done|].
  rewrite bind_get_fst. apply on_snd_Ret. unfold vec_as_slice. rewrite Hl', Nat2N.id.
  apply (z_read_list Hz (fun x => Hu x t_zst)).
Qed.
Lemma x_C117_heap_ex :
  @sdemo_outs env_debug unit zst 4 wz_start
    (replicate 5 (SPush tt) ++ [SRemove 0; SSwapRemove 1; SIndex 3; STruncate 2; SAssign 1 tt; SAsSlice; SPop; SClear]) =
    (pair true <$> replicate 5 (Ret RUnit)) ++ (pair false <$>
     [Ret (RVal tt); Ret (RVal tt); Panic PUnwrap; Ret RUnit; Ret RUnit; Ret (RList [tt; tt]);
      Ret (ROpt (Some tt)); Ret RUnit]).
Proof. vm_compute; reflexivity. Qed.

(** Moving a spilled vector back after taking an element out releases that pointer as well. *)
Lemma p_C117_to_stack_refuted : forall (EN : Env) (T : Type) (EL : Elem T) (Cap : N) (w : world T) x sc,
  t_size = 0 -> (forall x y : T, x = y) -> no_drop_panic -> cur_scope w = Some sc ->
  4 <= Cap -> Cap + 1 <= usize_max ->
  exists outs s w1,
    srun Cap (replicate (N.to_nat Cap) (SPush x) ++ [SPush x; SPop]) (sv_new Cap, w) = (outs, (s, w1)) /\
    Forall (fun o => exists r, o.2 = Ret r) outs /\ sv_len s = Cap /\ is_stack s = false /\
    fst (sv_try_move_to_stack Cap (s, w1)) = UB Dangling_access.
Proof.
  intros EN T EL Cap w x sc Hz Hu Hnd Hsc H4 Hb.
  destruct (sz_pushes Cap Hz (fun x => Hu x t_zst) x (N.to_nat Cap) (sv_new Cap) w [] [SPush x; SPop] (szrep_new Cap Hz))
    as (s1&Hr1&He1); [done|simpl; lia|done|].
  destruct (sz_spill Cap Hz (fun x => Hu x t_zst) x s1 w _ sc Hr1) as (v&m&w'&He&Hl&Hd&_);
    [done|simpl; rewrite replicate_length; lia|done|done|].
  assert (sv_pop Cap (SVec (Heap v) m, w') = (Ret (Some t_zst), (SVec (Heap (Vec (v_ptr v) Cap)) m, w'))) as Hp.
  { apply redirect_heap. unfold vec_pop. rewrite bind_get_fst, Hl.
    destruct (N.eqb_spec (Cap + 1) 0); [lia|].
    rewrite bind_usub by lia.
    erewrite bind_Ret by (apply on_snd_Ret; apply (z_read Hz)).
    erewrite bind_Ret by (apply (z_set_len Hz); lia). by rewrite N.add_sub. }
  simpl in He1. erewrite !(bind_Ret _ _ _ _ _ He) in He1 by exact He. simpl in He1.
  erewrite !(bind_Ret _ _ _ _ _ Hp) in He1 by exact Hp. simpl in He1.
  eexists _, _, _. split; [exact He1|]. split; [|split; [done|split; [done|]]].
  - apply Forall_app. split; [by apply Forall_replicate; eexists|]. repeat constructor; by eexists.
  - unfold sv_try_move_to_stack. rewrite bind_get_fst. simpl. rewrite N.leb_refl, Hz. simpl.
    unfold bind, on_snd, put_fst, vec_dealloc_without_drop, sp_dealloc, ga_dealloc. simpl.
    unfold vdata in Hd. by rewrite Hd.
Qed.
Lemma x_C117_to_stack_ex :
  @no_drop_panic unit zst /\ cur_scope wz_start = Some 7 /\
  @sdemo_outs env_debug unit zst 4 wz_start (replicate 4 (SPush tt) ++ [SPush tt; SPop; SLen]) =
    [(true, Ret RUnit); (true, Ret RUnit); (true, Ret RUnit); (true, Ret RUnit); (true, Ret RUnit);
     (false, Ret (ROpt (Some tt))); (false, Ret (RNum 4))].
Proof. split; [done|]. split; vm_compute; reflexivity. Qed.
