(** Proofs of the statements collected in PropertiesVec.v: histories, reservations, indices. *)
From Verif Require Export VecFacts.
From Coq Require Import ZifyBool ZifyNat ZifyN.

Section more.
  Context {EN : Env} {T : Type} {EL : Elem T} (Hz : 0 < t_size).

  Lemma ga_realloc_calm a p l s (w : world T) q w' : ga_realloc a p l s w <> (Panic q, w').
  Proof.
    unfold ga_realloc. destruct p as [|b]; [done|]. destruct (heap w !! b); [|done].
    destruct (decide _); [|done]. destruct (_ =? 0); [done|]. destruct (_ <? _); [done|].
    by destruct (e_aok _ _).
  Qed.

  (** Panics of [try_reserve]. *)
  Lemma try_reserve_panics (w : world T) v xs n :
    rep w v xs ->
    (exists p st, vec_try_reserve n (v, w) = (Panic p, st)) <->
    usize_max < llen xs + n \/
    (vcap v < llen xs + n /\ e_checks = true /\ 0 < vcap v /\
     usize_max < amortized (vcap v) (llen xs + n) * t_size).
  Proof.
    intros Hr. pose proof (rep_cap Hz _ _ _ Hr) as [Hlc Hfc]. pose proof Hr as [Hlen _].
    pose proof (fits_bound Hz _ Hfc) as Hcb.
    unfold vec_try_reserve. rewrite bind_get_fst, Hlen. unfold overflow_guarded_add.
    destruct (N.leb_spec (llen xs + n) usize_max) as [Hb|Hb].
    2: { rewrite bind_throw. split; [by left|]. intros _. by eexists _, _. }
    rewrite bind_ret. destruct (N.ltb_spec (vcap v) (llen xs + n)) as [Hlt|Hge].
    2: { split; [intros (p&st&H); done|lia]. }
    unfold vec_grow_amortized. rewrite bind_get_fst, bind_debug_assert by lia.
    rewrite bind_umul by (unfold isize_max, usize_max in *; lia).
    unfold vec_grow_exact. fold (amortized (vcap v) (llen xs + n)).
    rewrite bind_get_fst, bind_debug_assert by (unfold amortized; lia).
    destruct (N.eqb_spec (vcap v) 0) as [Hc|Hc].
    { split; [|lia]. intros (p&st&H). exfalso. revert H. unfold bind at 1, on_snd. simpl.
      destruct (N.leb_spec (amortized (vcap v) (llen xs + n) * t_size) limit) as [Hf|Hf].
      - destruct (try_with_capacity_ok Hz w _ (vmarker v) (rep_wok _ _ _ Hr) Hf)
          as (r&w'&He&_). rewrite He. destruct r; done.
      - rewrite (try_with_capacity_big Hz w _ (vmarker v) Hf). done. }
    unfold vec_realloc. rewrite bind_get_fst. unfold bind at 1, on_snd. simpl.
    unfold realloc_array, umul, bind.
    destruct (N.leb_spec (amortized (vcap v) (llen xs + n) * t_size) usize_max) as [Hm|Hm]; simpl.
    { split; [|lia]. intros (p&st&H). exfalso. revert H. unfold ret.
      destruct (ga_realloc _ _ _ _ w) as [[[b|]|q| |u] w2] eqn:E; try done. by apply ga_realloc_calm in E. }
    destruct e_checks; simpl.
    { split; [intros _; right; split_and!; [done|done|lia|done]|]. intros _. by eexists _, _. }
    split; [|intros [?|(?&?&?)]; [lia|done]]. intros (p&st&H). exfalso. revert H.
    unfold ret. destruct (ga_realloc _ _ _ _ w) as [[[b|]|q| |u] w2] eqn:E; try done.
    by apply ga_realloc_calm in E.
  Qed.
End more.

Lemma vtrace_length {T} R cl (xs : list T) ops ins outs xs' ds :
  vtrace R cl xs ops ins outs xs' ds -> length outs = length ops.
Proof. induction 1; simpl; congruence. Qed.
Lemma new_run {EN : Env} {T} {EL : Elem T} (w : world T) ops v0 w0 outs v w1 :
  0 < t_size -> no_drop_panic -> wok w ->
  N.max (2 * total_demand ops) 8 * t_size <= isize_max + 1 - t_align ->
  vec_new w = (Ret v0, w0) -> vrun ops (v0, w0) = (outs, (v, w1)) -> Forall defined outs ->
  exists ins xs ds, vtrace refuses t_clone [] ops ins outs xs ds /\ rep w1 v xs /\
    vrest v w1 = heap w /\ drops w1 = drops w ++ ds.
Proof.
  intros Hz Hnd Hw Hf Hn He Hd.
  destruct (new_born Hz w Hw) as (v1&w2&Hn'&Hrep&(Hb1&Hb2&_)&_&Hc). rewrite app_nil_r in Hb2. rewrite Hn in Hn'. injection Hn' as <- <-.
  destruct (run_any Hz ops 0 w0 v0 [] Hrep) as (o2&v3&w3&He'&Hcase);
    [lia|simpl; lia|by rewrite N.add_0_l|done|].
  rewrite He in He'. injection He' as <- <- <-.
  destruct Hcase as [(ins&xs&ds&Ht&Hr3&[Ha1 Ha2]&_)|(pre&op&post&ins&outs'&xs&ds&u&_&->&_)].
  2: { apply Forall_app in Hd as [_ Hd]. inversion Hd as [|?? [[? ?]|[? ?]] _]; done. }
  exists ins, xs, ds. split_and!; try done; congruence.
Qed.

Lemma dtrace_length {T} panics R cl (xs : list T) ops ins outs xs' ds :
  dtrace panics R cl xs ops ins outs xs' ds -> length outs = length ops.
Proof. induction 1; simpl; congruence. Qed.
Lemma dtrace_defined {T} panics R cl (xs : list T) ops ins outs xs' ds :
  dtrace panics R cl xs ops ins outs xs' ds -> Forall defined outs.
Proof.
  induction 1 as [|xs op ops i1 i2 o outs xs1 xs2 d1 d2 Hna Hs Ht IH]; constructor; [|done].
  unfold defined. destruct Hs as [xs op i1 o xs1 d1 Hs _|xs Hcu]; [|eauto].
  unfold settle in *. destruct Hs; destruct (culprits panics _) as [|? []]; eauto; done.
Qed.
(** The same without an assumption on the destructors. *)
Lemma new_run_gen {EN : Env} {T} {EL : Elem T} (w : world T) ops v0 w0 outs v w1 :
  0 < t_size -> wok w ->
  N.max (2 * total_demand ops) 8 * t_size <= isize_max + 1 - t_align ->
  vec_new w = (Ret v0, w0) -> vrun ops (v0, w0) = (outs, (v, w1)) -> Forall defined outs ->
  exists ins xs ds, dtrace drop_panics refuses t_clone [] ops ins outs xs ds /\ rep w1 v xs /\
    vrest v w1 = heap w /\ drops w1 = drops w ++ ds.
Proof.
  intros Hz Hw Hf Hn He Hd.
  destruct (new_born Hz w Hw) as (v1&w2&Hn'&Hrep&(Hb1&Hb2&_)&_&Hc). rewrite app_nil_r in Hb2. rewrite Hn in Hn'. injection Hn' as <- <-.
  destruct (run_gen Hz ops 0 w0 v0 [] Hrep) as (o2&v3&w3&He'&Hcase);
    [lia|simpl; lia|by rewrite N.add_0_l|].
  rewrite He in He'. injection He' as <- <- <-.
  destruct Hcase as [(ins&xs&ds&Ht&Hr3&[Ha1 Ha2]&_)|(pre&op&post&ins&outs'&xs&ds&o&_&->&_&Ho)].
  2: { apply Forall_app in Hd as [_ Hd]. inversion Hd as [|?? [[? ?]|[? ?]] _]; destruct Ho as [(?&?&_)|[? _]]; congruence. }
  exists ins, xs, ds. split_and!; try done; congruence.
Qed.

(** * C06 *)

(** Every history on a new vector in an arbitrary surrounding world either behaves as the list
    specification says, call by call, or runs into one of the two undefined calls, having behaved
    like a list until then. *)
Lemma p_C06_vec_is_a_list_partial : forall (EN : Env) (T : Type) (EL : Elem T) (w : world T) ops,
  0 < t_size -> no_drop_panic -> wok w ->
  N.max (2 * total_demand ops) 8 * t_size <= isize_max + 1 - t_align ->
  exists v0 w0 outs v w1,
    vec_new w = (Ret v0, w0) /\ vrun ops (v0, w0) = (outs, (v, w1)) /\
    ((exists ins xs ds, vtrace refuses t_clone [] ops ins outs xs ds /\
        vec_as_slice v w1 = (Ret xs, w1) /\ v_len v = llen xs) \/
     (exists pre op post outs' ins xs ds u, ops = pre ++ op :: post /\ outs = outs' ++ [UB u] /\
        vtrace refuses t_clone [] pre ins outs' xs ds /\
        (op = OSwapRemove (llen xs - 1) /\ 2 <= llen xs /\ u = Overlap /\ e_strict = true \/
         (op = OShrinkToFit \/ op = OShrinkTo 0) /\ xs = [] /\ u = ZeroSizeAlloc))).
Proof.
  intros EN T EL w ops Hz Hnd Hw Hf.
  destruct (new_born Hz w Hw) as (v0&w0&Hn&Hrep&_&_&Hc).
  destruct (run_any Hz ops 0 w0 v0 [] Hrep) as (outs&v&w1&He&Hcase);
    [lia|simpl; lia|by rewrite N.add_0_l|done|].
  exists v0, w0, outs, v, w1. split; [done|]. split; [done|].
  destruct Hcase as [(ins&xs&ds&Ht&Hr&_)|(pre&op&post&ins&outs'&xs&ds&u&->&->&Ht&Hu)].
  - left. exists ins, xs, ds. split_and!; [done|by apply (as_slice_ok Hz)|by destruct Hr].
  - right. exists pre, op, post, outs', ins, xs, ds, u. done.
Qed.
Lemma x_C06_vec_is_a_list_ex :
  let ops := ops123 ++ [OSwapRemove 0; OShrinkTo 4; OIndex 7; OAsSlice] in
  wok w_start /\ N.max (2 * total_demand ops) 8 * @t_size N num_drop <= isize_max + 1 - 8 /\
  @demo_outs env_debug N num_drop w_start ops
  = [Ret RUnit; Ret RUnit; Ret RUnit; Ret (RVal 9); Ret RUnit; Ret RUnit; Ret (RVal 1);
     Ret RUnit; Panic PIndex; Ret (RList [3; 2])].
Proof. split; [apply w_start_ok|]. by split; vm_compute. Qed.

(** [swap_remove] of the last of several elements copies it onto itself. *)
Lemma p_C06_swap_remove_last_refuted : forall (EN : Env) (T : Type) (EL : Elem T) v (w : world T) xs,
  0 < t_size -> reached v w xs -> 2 <= llen xs -> e_strict = true ->
  fst (vec_swap_remove (llen xs - 1) (v, w)) = UB Overlap.
Proof.
  intros EN T EL v w xs Hz Hr. apply (swap_remove_last_strict Hz). by apply (reached_rep Hz).
Qed.
Lemma x_C06_swap_remove_last_ex :
  @reached env_debug N num_drop (v123 env_debug num_drop) (w123 env_debug num_drop) [1; 2; 3] /\
  fst (@vec_swap_remove env_debug N num_drop 2 (v123 env_debug num_drop, w123 env_debug num_drop))
    = UB Overlap.
Proof. split; [apply reached123_drop|by vm_compute]. Qed.

(** Shrinking an empty vector that has memory asks the allocator for zero bytes. *)
Lemma p_C06_shrink_empty_refuted : forall (EN : Env) (T : Type) (EL : Elem T) v (w : world T),
  0 < t_size -> reached v w [] -> 0 < vcap v ->
  fst (vec_shrink_to_fit (v, w)) = UB ZeroSizeAlloc /\
  fst (vec_shrink_to 0 (v, w)) = UB ZeroSizeAlloc.
Proof.
  intros EN T EL v w Hz Hr Hc. pose proof (reached_rep Hz _ _ _ Hr) as Hrep.
  rewrite (shrink_to_fit_eq w v [] Hrep). split; by apply (shrink_to_zero Hz).
Qed.
Lemma x_C06_shrink_empty_ex :
  let st := @demo env_release N num_drop w_start [OPush 1; OPop] in
  @reached env_release N num_drop (fst st) (snd st) [] /\ 0 < @vcap N num_drop (fst st).
Proof. split; [by apply demo_reached; [apply w_start_ok|..]; vm_compute|by vm_compute]. Qed.

(** * C07 *)

(** Of all values that came in ([ins]: by value, or made by a clone or closure), each was handed
    back once or destroyed once; the memory is as before.  For every history none of whose calls is
    undefined; C06 says which calls are. *)
Lemma p_C07_vec_ledger_partial : forall (EN : Env) (T : Type) (EL : Elem T) (w : world T) ops v0 w0 outs v w1,
  0 < t_size -> no_drop_panic -> wok w ->
  N.max (2 * total_demand ops) 8 * t_size <= isize_max + 1 - t_align ->
  vec_new w = (Ret v0, w0) -> vrun ops (v0, w0) = (outs, (v, w1)) -> Forall defined outs ->
  exists w2 ins xs ds,
    vec_drop_val v w1 = (Ret tt, w2) /\ vtrace refuses t_clone [] ops ins outs xs ds /\
    heap w2 = heap w /\
    exists destroyed, drops w2 = drops w ++ destroyed /\
      ins ≡ₚ concat (handed_out <$> outs) ++ destroyed.
Proof.
  intros EN T EL w ops v0 w0 outs v w1 Hz Hnd Hw Hf Hn He Hd.
  destruct (new_run w ops v0 w0 outs v w1) as (ins&xs&ds&Ht&Hr&Hv&Hds); try done.
  destruct (vec_drop_val_gone Hz w1 v xs Hr Hnd) as (w2&Hdr&Hg&Hd2&_).
  exists w2, ins, xs, ds. split_and!; try done; [congruence|].
  exists (ds ++ xs). split; [by rewrite Hd2, Hds, app_assoc|]. by eapply (vtrace_ledger _ _ []).
Qed.
Lemma x_C07_vec_ledger_ex :
  let st := @demo env_debug N num_drop w_start ops123 in
  wok w_start /\ Forall defined (@demo_outs env_debug N num_drop w_start ops123) /\
  drops (snd (@vec_drop_val N num_drop (fst st) (snd st))) = [1; 2; 3] /\
  map_to_list (heap (snd (@vec_drop_val N num_drop (fst st) (snd st)))) = map_to_list (heap w_start).
Proof.
  split_and!; [apply w_start_ok|by apply definedb_ok; vm_compute|by vm_compute|].
  vm_compute. reflexivity.
Qed.

(** * C08 *)

(** At every point of a history the rest of the heap is untouched. *)
Lemma p_C08_vec_frame_partial : forall (EN : Env) (T : Type) (EL : Elem T) (w : world T) ops v0 w0 outs v w1,
  0 < t_size -> wok w ->
  N.max (2 * total_demand ops) 8 * t_size <= isize_max + 1 - t_align ->
  vec_new w = (Ret v0, w0) -> vrun ops (v0, w0) = (outs, (v, w1)) -> Forall defined outs ->
  length outs = length ops /\
  match vdata v with
  | Dangling => heap w1 = heap w
  | Blk b => heap w !! b = None /\ delete b (heap w1) = heap w
  end.
Proof.
  intros EN T EL w ops v0 w0 outs v w1 Hz Hw Hf Hn He Hd.
  destruct (new_run_gen w ops v0 w0 outs v w1) as (ins&xs&ds&Ht&Hr&Hv&Hds); try done.
  split; [by eapply dtrace_length|]. unfold vrest in Hv.
  destruct (vdata v); simpl in Hv; [done|]. split; [|done]. rewrite <-Hv. apply lookup_delete.
Qed.
Lemma x_C08_vec_frame_ex :
  let st := @demo env_debug N num_drop w_start ops123 in
  Forall defined (@demo_outs env_debug N num_drop w_start ops123) /\
  vdata (fst st) = Blk 4 /\
  map_to_list (delete 4 (heap (snd st))) = map_to_list (heap w_start).
Proof. split; [by apply definedb_ok; vm_compute|]. split; vm_compute; reflexivity. Qed.

(** * C09 *)

Lemma p_C09_reserve_exact : forall (EN : Env) (T : Type) (EL : Elem T) v (w : world T) xs n,
  0 < t_size -> reached v w xs ->
  (llen xs + n) * t_size <= isize_max + 1 - t_align ->
  exists r v' w', vec_reserve_exact n (v, w) = (r, (v', w')) /\
    (r = Ret tt ->
      vec_as_slice v' w' = (Ret xs, w') /\
      vcap v' = (if vcap v <? llen xs + n then llen xs + n else vcap v) /\
      forall ys, llen ys <= n -> exists v'' w'',
        vrun (OPush <$> ys) (v', w') = (replicate (length ys) (Ret RUnit), (v'', w'')) /\
        vec_as_slice v'' w'' = (Ret (xs ++ ys), w'') /\
        events w'' = events w' /\ ncalls w'' = ncalls w') /\
    (r <> Ret tt -> r = Panic PUnwrap /\ e_aok (ncalls w) ((llen xs + n) * t_size) = false).
Proof.
  intros EN T EL v w xs n Hz Hre Hf. pose proof (reached_rep Hz v w xs Hre) as Hr.
  destruct (reserve_exact_ok Hz w v xs n Hr Hf) as (r&v'&w'&He&_&Hr'&Hcase).
  exists r, v', w'. split; [done|]. destruct Hcase as [(->&Hc&_&H1&H2)|(->&->&?&?)]; [|by split].
  split; [|done]. intros _. split_and!.
  - by apply (as_slice_ok Hz).
  - destruct (N.ltb_spec (vcap v) (llen xs + n)); [by apply H2|]. by destruct H1 as [-> _].
  - intros ys Hy. destruct (push_many_quiet Hz ys w' v' xs Hr') as (v2&w2&He2&Hr2&?&?&?); [lia|].
    exists v2, w2. split_and!; try done. by apply (as_slice_ok Hz).
Qed.
Lemma x_C09_reserve_exact_ex :
  @reached env_debug N num (v123 env_debug num) (w123 env_debug num) [1; 2; 3] /\
  @vcap N num (v123 env_debug num) = 6 /\
  exists v' w', @vec_reserve_exact env_debug N num 9 (v123 env_debug num, w123 env_debug num)
    = (Ret tt, (v', w')) /\ @vcap N num v' = 12.
Proof.
  split; [apply reached123|]. split; [by vm_compute|]. eexists _, _. split; vm_compute; reflexivity.
Qed.

Lemma p_C09_reserve : forall (EN : Env) (T : Type) (EL : Elem T) v (w : world T) xs n,
  0 < t_size -> reached v w xs ->
  let least := if t_size =? 1 then 8 else if t_size <=? 1024 then 4 else 1 in
  let cap := N.max (N.max (llen xs + n) least) (vcap v * 2) in
  cap * t_size <= isize_max + 1 - t_align ->
  exists r v' w', vec_reserve n (v, w) = (r, (v', w')) /\
    (r = Ret tt ->
      vec_as_slice v' w' = (Ret xs, w') /\
      vcap v' = (if vcap v <? llen xs + n then cap else vcap v) /\
      forall ys, llen ys <= n -> exists v'' w'',
        vrun (OPush <$> ys) (v', w') = (replicate (length ys) (Ret RUnit), (v'', w'')) /\
        vec_as_slice v'' w'' = (Ret (xs ++ ys), w'') /\
        events w'' = events w' /\ ncalls w'' = ncalls w') /\
    (r <> Ret tt -> r = Panic PUnwrap /\ e_aok (ncalls w) (cap * t_size) = false).
Proof.
  intros EN T EL v w xs n Hz Hre least cap Hf. pose proof (reached_rep Hz v w xs Hre) as Hr.
  destruct (reserve_ok Hz w v xs n Hr (fun _ => Hf)) as (r&v'&w'&He&_&Hr'&Hcase).
  exists r, v', w'. split; [done|]. destruct Hcase as [(->&Hc&_&H1&H2)|(->&->&?&?)]; [|by split].
  split; [|done]. intros _. split_and!.
  - by apply (as_slice_ok Hz).
  - destruct (N.ltb_spec (vcap v) (llen xs + n)); [by apply H2|]. by destruct H1 as [-> _].
  - intros ys Hy. destruct (push_many_quiet Hz ys w' v' xs Hr') as (v2&w2&He2&Hr2&?&?&?); [lia|].
    exists v2, w2. split_and!; try done. by apply (as_slice_ok Hz).
Qed.
Lemma x_C09_reserve_ex :
  @reached env_debug N num (v123 env_debug num) (w123 env_debug num) [1; 2; 3] /\
  exists v' w', @vec_reserve env_debug N num 4 (v123 env_debug num, w123 env_debug num)
    = (Ret tt, (v', w')) /\ @vcap N num v' = 12.
Proof. split; [apply reached123|]. eexists _, _. split; vm_compute; reflexivity. Qed.

(** * C10 *)

(** [refused w r v' w' d]: the call ended in [r] without changing what [v] shows or reports, and
    destroyed [d]. *)
Definition unchanged {T} {EL : Elem T} (v : vec) (xs : list T) (w : world T) (v' : vec)
  (w' : world T) (d : list T) : Prop :=
  v' = v /\ vec_as_slice v' w' = (Ret xs, w') /\ drops w' = drops w ++ d /\
  delete_ptr (vdata v) (heap w') = delete_ptr (vdata v) (heap w).

Lemma unchanged_intro {EN : Env} {T} {EL : Elem T} v xs (w w1 : world T) d : 0 < t_size ->
  rep w1 v xs -> keeps v w v w1 d -> unchanged v xs w v w1 d.
Proof. intros Hz H1 (H2&H3&_). split_and!; try done. by apply (as_slice_ok Hz). Qed.

Lemma p_C10_try_reserve_refused : forall (EN : Env) (T : Type) (EL : Elem T) v (w : world T) xs n e v' w',
  0 < t_size -> reached v w xs ->
  vec_try_reserve n (v, w) = (Ret (Err e), (v', w')) \/
  vec_try_reserve_exact n (v, w) = (Ret (Err e), (v', w')) ->
  unchanged v xs w v' w' [] /\ (e = CapacityOverflow -> vcap v = 0 /\ w' = w).
Proof.
  intros EN T EL v w xs n e v' w' Hz Hre H. pose proof (reached_rep Hz v w xs Hre) as Hr.
  assert (exists c, reserved w v xs n c (Ret (Err e)) v' w') as (c&Hres).
  { destruct H as [He|He].
    - destruct (try_reserve_total Hz w v xs n Hr) as (r&v1&w1&He1&Hres).
      rewrite He in He1. injection He1 as <- <- <-. eauto.
    - destruct (try_reserve_exact_total Hz w v xs n Hr) as (r&v1&w1&He1&Hres).
      rewrite He in He1. injection He1 as <- <- <-. eauto. }
  destruct Hres as [(_&?&_)|[(_&_&?&_)|(_&_&Hg)]]; [done..|].
  destruct Hg as [(Hk&Hr'&Hcase)|(_&_&_&[(?&?)|(?&_)])]; [|done..].
  destruct Hcase as [(?&_)|(->&Hcase)]; [done|]. split; [by apply unchanged_intro|].
  intros ->. destruct Hcase as [(?&_)|[(_&?&_&?)|(?&_)]]; done.
Qed.
Lemma x_C10_try_reserve_refused_ex :
  let EN := env_refusing 4 in let st := @demo EN N num_drop w_start ops123 in
  @reached EN N num_drop (fst st) (snd st) [1; 2; 3] /\
  exists v' w', @vec_try_reserve EN N num_drop 9 st = (Ret (Err AllocErr), (v', w')).
Proof.
  split; [by apply demo_reached; [apply w_start_ok|..]; vm_compute|].
  eexists _, _. vm_compute. reflexivity.
Qed.

(** [reserve], [push], [insert], [extend_from_slice] and extending from an iterator whose size
    hint covers its items. *)
Definition growing {T} (xs : list T) (op : vop T) (d : list T) : Prop :=
  match op with
  | OReserve _ | OReserveExact _ | OExtendSlice _ => d = []
  | OPush x => d = [x]
  | OInsert i x => d = [x] /\ i <= llen xs
  | OExtendIter it h => d = [] /\ llen it <= h
  | _ => False
  end.
Lemma p_C10_growth_refused : forall (EN : Env) (T : Type) (EL : Elem T) v (w : world T) xs op d v' w',
  0 < t_size -> reached v w xs -> growing xs op d ->
  N.max (N.max (llen xs + demand op) 8) (vcap v * 2) * t_size <= isize_max + 1 - t_align ->
  vexec op (v, w) = (Panic PUnwrap, (v', w')) ->
  unchanged v xs w v' w' d.
Proof.
  intros EN T EL v w xs op d v' w' Hz Hre Hg Hf He.
  pose proof (reached_rep Hz v w xs Hre) as Hr.
  assert (fits (llen xs + demand op)) as Hf1 by (eapply (fits_le Hz); [|exact Hf]; lia).
  assert (forall v1 w1 d1, rep w1 v1 xs -> keeps v w v1 w1 d1 -> v1 = v -> unchanged v xs w v1 w1 d1) as Hun.
  { intros v1 w1 d1 H1 (H2&H3&_) ->. split_and!; try done. by apply (as_slice_ok Hz). }
  destruct op; simpl in Hg, He, Hf1; try done.
  - subst d. destruct (push_ok Hz w v xs x Hr) as (r&v1&w1&He1&Hcase); [done|].
    destruct Hcase as [(->&_)|(->&Hr1&Hk&->&_)].
    + erewrite bind_Ret in He by exact He1. done.
    + unfold bind in He. rewrite He1 in He. unfold unwound in He.
      destruct (t_needs_drop && t_drop_panics x); [done|]. injection He as <- <-. auto.
  - destruct Hg as [-> Hi]. destruct (insert_ok Hz w v xs i x Hr) as (r&v1&w1&He1&Hcase); [done|].
    destruct Hcase as [(_&->&_)|[(_&->&Hr1&Hk&->&_)|(?&_)]]; [| |lia].
    + erewrite bind_Ret in He by exact He1. done.
    + unfold bind in He. rewrite He1 in He. unfold unwound in He.
      destruct (t_needs_drop && t_drop_panics x); [done|]. injection He as <- <-. auto.
  - subst d. destruct (extend_from_slice_ok Hz l w v xs Hr Hf1) as (r&v1&w1&ys&He1&Hr1&Hk&_&_&Hcase).
    destruct Hcase as [(->&_)|[(->&_)|(->&->&->&_)]].
    + erewrite bind_Ret in He by exact He1. done.
    + erewrite bind_Panic in He by exact He1. done.
    + erewrite bind_Panic in He by exact He1. injection He as <- <-. rewrite app_nil_r in Hr1. auto.
  - destruct Hg as [-> Hh].
    destruct (vec_reserve_exact hint (v, w)) as [r0 st0] eqn:E.
    destruct (reserve_exact_ok Hz w v xs hint Hr) as (r1&v1&w1&He1&Hk1&Hr1&Hcase).
    { eapply (fits_le Hz); [|exact Hf1]. lia. }
    rewrite E in He1. injection He1 as -> ->. unfold vec_extend_from_iter in He.
    destruct Hcase as [(->&Hc&_)|(->&->&_)].
    + rewrite bind_assoc in He. erewrite bind_Ret in He by exact E.
      destruct (push_all_ok Hz it w1 v1 xs Hr1) as (r&v2&w2&ys&ds&He2&_&_&_&_&Hcase).
      { eapply (fits_le Hz); [|exact Hf1]. lia. }
      destruct Hcase as [(->&_)|[(->&_)|(y&it'&_&_&_&_&?)]]; [| |lia].
      * erewrite bind_Ret in He by exact He2. done.
      * erewrite bind_Panic in He by exact He2. done.
    + rewrite bind_assoc in He. erewrite bind_Panic in He by exact E. injection He as <- <-. auto.
  - subst d. destruct (reserve_ok Hz w v xs n Hr) as (r&v1&w1&He1&Hk&Hr1&Hcase).
    { intros _. eapply (fits_le Hz); [|exact Hf]. unfold amortized. pose proof min_cap_le. simpl. lia. }
    destruct Hcase as [(->&_)|(->&->&_)].
    + erewrite bind_Ret in He by exact He1. done.
    + erewrite bind_Panic in He by exact He1. injection He as <- <-. auto.
  - subst d. destruct (reserve_exact_ok Hz w v xs n Hr) as (r&v1&w1&He1&Hk&Hr1&Hcase); [done|].
    destruct Hcase as [(->&_)|(->&->&_)].
    + erewrite bind_Ret in He by exact He1. done.
    + erewrite bind_Panic in He by exact He1. injection He as <- <-. auto.
Qed.
Lemma x_C10_growth_refused_ex :
  let EN := env_refusing 1 in let st := @demo EN N num_drop w_start [OPush 1] in
  @reached EN N num_drop (fst st) (snd st) [1] /\ growing [1] (OInsert 0 5) [5] /\
  exists v' w', @vexec EN N num_drop (OInsert 0 5) st = (Panic PUnwrap, (v', w')) /\ drops w' = [5].
Proof.
  split; [by apply demo_reached; [apply w_start_ok|..]; vm_compute|]. split; [simpl; split; [done|lia]|].
  eexists _, _. split; vm_compute; reflexivity.
Qed.

(** * C11 *)

(** Pushing onto a full vector: every single push calls the allocator. *)
Lemma p_C11_push_amortised_refuted : forall (EN : Env) (T : Type) (EL : Elem T) (w : world T) ys,
  0 < t_size -> wok w -> llen ys * t_size <= isize_max + 1 - t_align ->
  (forall n sz, e_aok n sz = true) ->
  exists v0 w0 v w1, vec_new w = (Ret v0, w0) /\
    vrun (OPush <$> ys) (v0, w0) = (replicate (length ys) (Ret RUnit), (v, w1)) /\
    vec_as_slice v w1 = (Ret ys, w1) /\ ncalls w1 = (ncalls w + length ys)%nat.
Proof.
  intros EN T EL w ys Hz Hw Hf Ha.
  destruct (new_ok Hz w Hw) as (v&w1&He&Hr&(_&_&_&_&Hq)&_&Hc&_).
  destruct (push_many_calls Hz ys w1 v [] Hr) as (v2&w2&He2&Hr2&Hn); [done|done|done|].
  exists v, w1, v2, w2. split_and!; try done; [by apply (as_slice_ok Hz)|]. by rewrite Hn, Hq.
Qed.
Lemma x_C11_push_amortised_ex :
  wok w_start /\ (forall n sz, @e_aok env_release n sz = true) /\
  ncalls (snd (@demo env_release N num w_start (OPush <$> [1; 2; 3; 4; 5]))) = 5%nat.
Proof. split; [apply w_start_ok|]. split; [done|by vm_compute]. Qed.

(** * C12 *)

(** Exactly when the fallible reservations panic. *)
Lemma p_C12_try_reserve_exact_panics_refuted :
  forall (EN : Env) (T : Type) (EL : Elem T) v (w : world T) xs n,
  0 < t_size -> reached v w xs ->
  (exists p st, vec_try_reserve_exact n (v, w) = (Panic p, st)) <->
  usize_max < llen xs + n \/
  (e_checks = true /\ 0 < vcap v /\ usize_max < (llen xs + n) * t_size).
Proof.
  intros EN T EL v w xs n Hz Hre. apply (try_reserve_exact_panics Hz). by apply (reached_rep Hz).
Qed.
Lemma x_C12_try_reserve_exact_panics_ex :
  @reached env_release N num_drop (v123 env_release num_drop) (w123 env_release num_drop) [1; 2; 3] /\
  usize_max < llen [1; 2; 3] + usize_max /\
  fst (@vec_try_reserve_exact env_release N num_drop usize_max
         (v123 env_release num_drop, w123 env_release num_drop)) = Panic PCapacity /\
  @reached env_debug N num_drop (v123 env_debug num_drop) (w123 env_debug num_drop) [1; 2; 3] /\
  fst (@vec_try_reserve_exact env_debug N num_drop (2 ^ 61)
         (v123 env_debug num_drop, w123 env_debug num_drop)) = Panic PArith.
Proof.
  split; [apply reached123_release|]. split; [done|]. split; [by vm_compute|].
  split; [apply reached123_drop|by vm_compute].
Qed.
Lemma p_C12_try_reserve_panics_refuted :
  forall (EN : Env) (T : Type) (EL : Elem T) v (w : world T) xs n,
  0 < t_size -> reached v w xs ->
  let least := if t_size =? 1 then 8 else if t_size <=? 1024 then 4 else 1 in
  (exists p st, vec_try_reserve n (v, w) = (Panic p, st)) <->
  usize_max < llen xs + n \/
  (vcap v < llen xs + n /\ e_checks = true /\ 0 < vcap v /\
   usize_max < N.max (N.max (llen xs + n) least) (vcap v * 2) * t_size).
Proof.
  intros EN T EL v w xs n Hz Hre. apply (try_reserve_panics Hz). by apply (reached_rep Hz).
Qed.
Lemma x_C12_try_reserve_panics_ex :
  @reached env_debug N num_drop (v123 env_debug num_drop) (w123 env_debug num_drop) [1; 2; 3] /\
  fst (@vec_try_reserve env_debug N num_drop (2 ^ 62)
         (v123 env_debug num_drop, w123 env_debug num_drop)) = Panic PArith.
Proof. split; [apply reached123_drop|by vm_compute]. Qed.

(** * C13 *)

(** When the destructor of the value that could not be inserted panics too, the process ends. *)
Lemma p_C13_insert_index : forall (EN : Env) (T : Type) (EL : Elem T) v (w : world T) xs i x,
  0 < t_size -> reached v w xs ->
  let failed p := if t_needs_drop && t_drop_panics x then Abort else Panic p in
  (llen xs < i -> exists w', vec_insert i x (v, w) = (failed PAssert, (v, w')) /\
     unchanged v xs w v w' [x]) /\
  (i <= llen xs -> exists r v' w', vec_insert i x (v, w) = (r, (v', w')) /\
     ((r = Ret tt /\ vec_as_slice v' w' = (Ret (take (N.to_nat i) xs ++ x :: drop (N.to_nat i) xs), w'))
      \/ (r = failed PUnwrap /\ refuses /\ unchanged v xs w v' w' [x]))).
Proof.
  intros EN T EL v w xs i x Hz Hre. pose proof (reached_rep Hz v w xs Hre) as Hr.
  pose proof (reached_room Hz v w xs Hre) as Hf.
  destruct (insert_ok Hz w v xs i x Hr Hf) as (r&v1&w1&He&Hcase). unfold unwound in Hcase. cbv zeta.
  destruct Hcase as [(Hi&->&Hr1&_)|[(Hi&->&Hr1&Hk&->&_&Href)|(Hi&->&Hr1&Hk&->)]].
  - split; [lia|]. intros _. exists (Ret tt), v1, w1. split; [done|]. left. split; [done|].
    by apply (as_slice_ok Hz).
  - split; [lia|]. intros _. eexists _, v, w1. split; [done|]. right. split_and!; try done. by apply unchanged_intro.
  - split; [|lia]. intros _. exists w1. split; [done|]. by apply unchanged_intro.
Qed.
Lemma x_C13_insert_index_ex :
  @reached env_debug N num_drop (v123 env_debug num_drop) (w123 env_debug num_drop) [1; 2; 3] /\
  fst (@vec_insert env_debug N num_drop 4 5 (v123 env_debug num_drop, w123 env_debug num_drop))
    = Panic PAssert.
Proof. split; [apply reached123_drop|by vm_compute]. Qed.

Lemma p_C13_remove_index : forall (EN : Env) (T : Type) (EL : Elem T) v (w : world T) xs i,
  0 < t_size -> reached v w xs ->
  (llen xs <= i -> vec_remove i (v, w) = (Panic PAssert, (v, w))) /\
  (i < llen xs -> exists x v' w', xs !! N.to_nat i = Some x /\
     vec_remove i (v, w) = (Ret x, (v', w')) /\
     vec_as_slice v' w' = (Ret (take (N.to_nat i) xs ++ drop (S (N.to_nat i)) xs), w')).
Proof.
  intros EN T EL v w xs i Hz Hre. pose proof (reached_rep Hz v w xs Hre) as Hr.
  destruct (remove_ok Hz w v xs i Hr) as [[Hi He]|(x&v'&w'&Hi&Hx&He&Hr'&_)]; split; intros; try lia; try done.
  exists x, v', w'. split_and!; try done. rewrite <-delete_take_drop. by apply (as_slice_ok Hz).
Qed.
Lemma x_C13_remove_index_ex :
  @reached env_debug N num_drop (v123 env_debug num_drop) (w123 env_debug num_drop) [1; 2; 3] /\
  fst (@vec_remove env_debug N num_drop 1 (v123 env_debug num_drop, w123 env_debug num_drop)) = Ret 2.
Proof. split; [apply reached123_drop|by vm_compute]. Qed.

(** [swap_remove] never panics on a valid index (its result is in C06). *)
Lemma p_C13_swap_remove_index : forall (EN : Env) (T : Type) (EL : Elem T) v (w : world T) xs i,
  0 < t_size -> reached v w xs ->
  (llen xs <= i -> vec_swap_remove i (v, w) = (Panic PAssert, (v, w))) /\
  (i < llen xs -> forall p, fst (vec_swap_remove i (v, w)) <> Panic p).
Proof.
  intros EN T EL v w xs i Hz Hre. pose proof (reached_rep Hz v w xs Hre) as Hr.
  destruct (decide (e_strict = false \/ i + 1 <> llen xs \/ llen xs = 1)) as [Hd|Hd].
  - destruct (swap_remove_ok Hz w v xs i Hr Hd) as [[Hi He]|(x&l&v'&w'&Hi&Hx&Hl&He&_)];
      split; intros; try lia; try done. by rewrite He.
  - assert (e_strict = true /\ i = llen xs - 1 /\ 2 <= llen xs) as (?&->&?).
    { destruct (@e_strict e_profile); [|exfalso; apply Hd; by left].
      destruct (N.eq_dec (i + 1) (llen xs)); [|exfalso; apply Hd; by right; left].
      destruct (N.eq_dec (llen xs) 1); [exfalso; apply Hd; by right; right|]. split_and!; [done|lia|lia]. }
    split; [lia|]. intros _ p. by rewrite (swap_remove_last_strict Hz).
Qed.
Lemma x_C13_swap_remove_index_ex :
  @reached env_debug N num_drop (v123 env_debug num_drop) (w123 env_debug num_drop) [1; 2; 3] /\
  fst (@vec_swap_remove env_debug N num_drop 0 (v123 env_debug num_drop, w123 env_debug num_drop)) = Ret 1.
Proof. split; [apply reached123_drop|by vm_compute]. Qed.

(** * C14 *)

(** When something remains to be stored. *)
Lemma p_C14_shrink_partial : forall (EN : Env) (T : Type) (EL : Elem T) v (w : world T) xs m,
  0 < t_size -> reached v w xs -> 0 < N.max (llen xs) m ->
  exists r v' w', vec_shrink_to m (v, w) = (r, (v', w')) /\
    vec_as_slice v' w' = (Ret xs, w') /\ drops w' = drops w /\
    delete_ptr (vdata v') (heap w') = delete_ptr (vdata v) (heap w) /\
    ((r = Ret tt /\ vcap v' = N.min (vcap v) (N.max (llen xs) m))
     \/ (r = Panic PUnwrap /\ v' = v /\ refuses)).
Proof.
  intros EN T EL v w xs m Hz Hre Hm. pose proof (reached_rep Hz v w xs Hre) as Hr.
  destruct (shrink_to_ok Hz w v xs m Hr (or_introl Hm)) as (r&v'&w'&He&Hr'&(Hk&Hk2&_)&Hcase).
  exists r, v', w'. split_and!; try done; [by apply (as_slice_ok Hz)|]. by rewrite Hk2, app_nil_r.
Qed.
Lemma x_C14_shrink_ex :
  @reached env_debug N num_drop (v123 env_debug num_drop) (w123 env_debug num_drop) [1; 2; 3] /\
  @vcap N num_drop (v123 env_debug num_drop) = 6 /\
  exists v' w', @vec_shrink_to env_debug N num_drop 4 (v123 env_debug num_drop, w123 env_debug num_drop)
    = (Ret tt, (v', w')) /\ @vcap N num_drop v' = 4.
Proof. split; [apply reached123_drop|]. split; [by vm_compute|]. eexists _, _. split; vm_compute; reflexivity. Qed.

Lemma p_C14_shrink_to_fit_partial : forall (EN : Env) (T : Type) (EL : Elem T) v (w : world T) xs,
  0 < t_size -> reached v w xs -> xs <> [] ->
  exists r v' w', vec_shrink_to_fit (v, w) = (r, (v', w')) /\
    vec_as_slice v' w' = (Ret xs, w') /\ drops w' = drops w /\
    ((r = Ret tt /\ vcap v' = llen xs) \/ (r = Panic PUnwrap /\ v' = v /\ refuses)).
Proof.
  intros EN T EL v w xs Hz Hre Hne. pose proof (reached_rep Hz v w xs Hre) as Hr.
  rewrite (shrink_to_fit_eq w v xs Hr). assert (0 < llen xs) by (destruct xs; [done|simpl; lia]).
  destruct (shrink_to_ok Hz w v xs 0 Hr) as (r&v'&w'&He&Hr'&(Hk&Hk2&_)&Hcase); [lia|].
  pose proof (rep_cap Hz _ _ _ Hr) as [? _].
  exists r, v', w'. split_and!; try done; [by apply (as_slice_ok Hz)|by rewrite Hk2, app_nil_r|].
  destruct Hcase as [[-> Hc]|?]; [|by right]. left. split; [done|]. lia.
Qed.
Lemma x_C14_shrink_to_fit_ex :
  @reached env_debug N num_drop (v123 env_debug num_drop) (w123 env_debug num_drop) [1; 2; 3].
Proof. apply reached123_drop. Qed.

(** An empty vector with capacity cannot be shrunk to nothing. *)
Lemma p_C14_shrink_empty_refuted :
  exists (v : vec) (w : world N), @reached env_debug N num v w [] /\
    fst (@vec_shrink_to_fit env_debug N num (v, w)) = UB ZeroSizeAlloc.
Proof.
  exists (fst (@demo env_debug N num w_start [OPush 1; OPop])), (snd (@demo env_debug N num w_start [OPush 1; OPop])).
  split; [by apply demo_reached; [apply w_start_ok|..]; vm_compute|by vm_compute].
Qed.
