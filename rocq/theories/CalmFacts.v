(** Proofs of the statements collected in PropertiesCalm.v: full behaviour of [Vec], [SmallVec] and
    [String] for the uses described in SpecCalm.v. *)
From Verif Require Export SpecCalm VecFacts2 SmallFacts StrFacts.
From Coq Require Import ZifyBool ZifyNat ZifyN.
Ltac Zify.zify_post_hook ::= idtac.
Local Hint Resolve z8 nd8 : core.

(** * C72 *)

(** Every history of calm calls on a new vector, whatever the allocator does, returns call by call
    what the list specification says; at the end the vector shows [xs]; dropping it destroys what is
    left, and then every value that came in was handed out or destroyed exactly once and the heap is
    as before. *)
Lemma p_C72_vec_history : forall (EN : Env) (T : Type) (EL : Elem T) (w : world T) ops,
  0 < t_size -> no_drop_panic -> wok w ->
  N.max (2 * total_demand ops) 8 * t_size <= isize_max + 1 - t_align ->
  Forall (calm_vec e_strict) ops ->
  exists v0 w0 outs v w1 w2 ins xs ds,
    vec_new w = (Ret v0, w0) /\ vrun ops (v0, w0) = (outs, (v, w1)) /\
    vtrace refuses t_clone [] ops ins outs xs ds /\
    vec_as_slice v w1 = (Ret xs, w1) /\ v_len v = llen xs /\
    vec_drop_val v w1 = (Ret tt, w2) /\ heap w2 = heap w /\ drops w2 = drops w ++ ds ++ xs /\
    ins ≡ₚ concat (handed_out <$> outs) ++ ds ++ xs.
Proof.
  intros EN T EL w ops Hz Hnd Hw Hf Hc.
  destruct (new_born Hz w Hw) as (v0&w0&Hn&Hrep&(Hb1&Hb2&_)&_&Hcap). rewrite app_nil_r in Hb2.
  destruct (run_any Hz ops 0 w0 v0 [] Hrep) as (outs&v&w1&He&Hcase);
    [lia|simpl; lia|by rewrite N.add_0_l|done|].
  destruct Hcase as [(ins&xs&ds&Ht&Hr&_&Hdef)|(pre&op&post&ins&outs'&xs&ds&u&->&->&Ht&Hu)].
  2: { exfalso. apply Forall_app in Hc as [_ Hc]. apply Forall_cons in Hc as [Hc _].
       destruct Hu as [(->&_&_&Hs)|([->| ->]&_)]; simpl in Hc; [congruence|done|lia]. }
  destruct (new_run w ops v0 w0 outs v w1) as (ins'&xs'&ds'&Ht'&Hr'&Hv&Hds); try done.
  destruct (vec_drop_val_gone Hz w1 v xs' Hr' Hnd) as (w2&Hdr&Hg&Hd2&_).
  exists v0, w0, outs, v, w1, w2, ins', xs', ds'. split; [done|]. split; [done|]. split; [done|].
  split; [by apply (as_slice_ok Hz)|]. split; [by destruct Hr'|]. split; [done|]. split; [congruence|].
  split; [by rewrite Hd2, Hds, app_assoc|]. by eapply (vtrace_ledger _ _ []).
Qed.
Lemma x_C72_vec_history_ex :
  let ops := ops123 ++ [OShrinkTo 4; OIndex 7; OResize 5 8; OTruncate 4; OAsSlice] in
  wok w_start /\ N.max (2 * total_demand ops) 8 * @t_size N num_drop <= isize_max + 1 - 8 /\
  Forall (calm_vec true) ops /\
  @demo_outs env_debug N num_drop w_start ops
  = [Ret RUnit; Ret RUnit; Ret RUnit; Ret (RVal 9); Ret RUnit; Ret RUnit; Ret RUnit; Panic PIndex;
     Ret RUnit; Ret RUnit; Ret (RList [1; 2; 3; 8])].
Proof.
  split; [apply w_start_ok|]. split; [by vm_compute|]. split; [by repeat constructor|by vm_compute].
Qed.

(** * C73 *)

(** [swap_remove] of an index before the last one, of the only element, or of any element when
    library preconditions do not count: the element is returned, the last one takes its place, nothing
    is destroyed and no other memory changes. *)
Lemma p_C73_swap_remove : forall (EN : Env) (T : Type) (EL : Elem T) v (w : world T) xs i x,
  0 < t_size -> reached v w xs -> xs !! N.to_nat i = Some x ->
  i + 1 < llen xs \/ llen xs = 1 \/ e_strict = false ->
  exists v' w' ys, vec_swap_remove i (v, w) = (Ret x, (v', w')) /\
    vec_as_slice v' w' = (Ret ys, w') /\ drops w' = drops w /\ vcap v' = vcap v /\
    delete_ptr (vdata v') (heap w') = delete_ptr (vdata v) (heap w) /\
    llen ys + 1 = llen xs /\
    forall k, (k < length ys)%nat -> ys !! k = if (k =? N.to_nat i)%nat then last xs else xs !! k.
Proof.
  intros EN T EL v w xs i x Hz Hr Hx Hi. pose proof (reached_rep Hz _ _ _ Hr) as Hrep.
  pose proof (lookup_lt_Some _ _ _ Hx) as Hlt.
  destruct (swap_remove_ok Hz w v xs i Hrep) as [[Hge _]|(x'&l&v'&w'&_&Hx'&Hl&He&Hr'&(Hk1&Hk2&_)&Hp)].
  { destruct Hi as [Hi|[Hi|Hi]]; [right; left|right; right|by left]; clear -Hi; lia. }
  { clear -Hge Hlt. lia. }
  rewrite Hx in Hx'. injection Hx' as <-. eexists v', w', _. split; [exact He|].
  split; [by apply (as_slice_ok Hz)|]. split; [by rewrite Hk2, app_nil_r|].
  split; [unfold vcap; by rewrite Hp|]. split; [done|]. rewrite take_length, insert_length.
  split; [clear -Hlt; lia|]. intros k Hk. rewrite lookup_take by (clear -Hk; lia).
  destruct (Nat.eqb_spec k (N.to_nat i)) as [->|Hne]; [by rewrite list_lookup_insert|].
  by rewrite list_lookup_insert_ne.
Qed.
Lemma x_C73_swap_remove_ex :
  @reached env_debug N num_drop (v123 env_debug num_drop) (w123 env_debug num_drop) [1; 2; 3] /\
  [1; 2; 3] !! N.to_nat 0 = Some 1 /\ 0 + 1 < llen [1; 2; 3] /\
  exists st, @vec_swap_remove env_debug N num_drop 0 (v123 env_debug num_drop, w123 env_debug num_drop)
    = (Ret 1, st) /\ fst (@vec_as_slice N num_drop (fst st) (snd st)) = Ret [3; 2].
Proof. split; [apply reached123_drop|]. split; [done|]. split; [done|]. eexists. by split; vm_compute. Qed.

(** * C74 *)

(** A [SmallVec] of any inline capacity used as a stack, buffer or array: the full list behaviour, on
    the stack and across the move to the heap; nothing is lost. *)
Lemma p_C74_small_history : forall (EN : Env) (T : Type) (EL : Elem T) (Cap : N) (w : world T) ops,
  0 < t_size -> no_drop_panic -> wok w -> Cap * t_size <= isize_max + 1 - t_align ->
  (total_sdemand ops + 8) * t_size <= isize_max + 1 - t_align ->
  Forall (calm_small e_strict) ops ->
  exists outs s w1 w2 ins xs ds,
    srun Cap ops (sv_new Cap, w) = (outs, (s, w1)) /\
    strace refuses t_clone [] ops ins outs xs ds [] /\
    sv_slice s w1 = (Ret xs, w1) /\ sv_len s = llen xs /\
    sv_drop_val s w1 = (Ret tt, w2) /\ heap w2 = heap w /\ drops w2 = drops w ++ ds ++ xs /\
    ins ≡ₚ concat (handed_out <$> outs.*2) ++ ds ++ xs.
Proof.
  intros EN T EL Cap w ops Hz Hnd Hw HC Hf Hc.
  destruct (new_sok Hz Cap w Hw) as [Hr0 _].
  destruct (srun_any Cap Hz HC ops 0 w (sv_new Cap) [] Hr0) as (outs&s&w1&He&Hcase);
    [by vm_compute|simpl; lia|by rewrite N.add_0_l|done|].
  destruct Hcase as [(_&_&_&_&_&_&_&Hdef)|(pre&op&post&ins&outs'&xs&ds&ls&b&u&->&->&Ht&Hu)].
  2: { exfalso. apply Forall_app in Hc as [_ Hc]. apply Forall_cons in Hc as [Hc _].
       destruct op; simpl in Hu, Hc; try done.
       - destruct Hu as [Hs _]. congruence.
       - destruct Hu as (_&_&->&_). clear -Hc. lia. }
  destruct (new_srun Cap Hz ops w outs s w1 Hnd Hw HC Hf He Hdef) as (ins&xs&ds&ls&Ht&Hr&Hv&Hds).
  assert (ls = []) as ->.
  { eapply strace_leak; [exact Ht|]. intros k n b o Hk _. exfalso.
    pose proof (Forall_lookup_1 _ _ _ _ Hc Hk) as Hx. done. }
  destruct (drop_val_sok Hz Cap w1 s xs Hr Hnd) as (w2&Hdr&Hg&Hd2&_).
  exists outs, s, w1, w2, ins, xs, ds. split; [done|]. split; [done|]. split; [by apply (slice_sok Cap Hz)|].
  split; [by apply (srep_len Hz Cap HC) in Hr as (->&_)|]. split; [done|]. split; [by rewrite Hg|].
  split; [by rewrite Hd2, Hds, app_assoc|].
  pose proof (strace_ledger _ _ _ _ _ _ _ _ _ Ht) as Hl. simpl in Hl. rewrite Hl. done.
Qed.
Lemma x_C74_small_history_ex :
  let ops := [SPush 1; SPush 2; SPush 3; SAssign 0 7; SPop; SIndex 5; SAppend [4; 5]; SExtendSlice [6];
              SShrinkTo 5; SAsSlice] in
  wok w_start /\ 4 * @t_size N num_drop <= isize_max + 1 - 8 /\
  (total_sdemand ops + 8) * @t_size N num_drop <= isize_max + 1 - 8 /\ Forall (calm_small true) ops /\
  @sdemo_outs env_debug N num_drop 4 w_start ops
  = [(true, Ret RUnit); (true, Ret RUnit); (true, Ret RUnit); (true, Ret RUnit); (true, Ret (ROpt (Some 3)));
     (true, Panic PUnwrap); (true, Ret RUnit); (true, Ret RUnit); (false, Ret RUnit);
     (false, Ret (RList [7; 2; 4; 5; 6]))].
Proof.
  split; [apply w_start_ok|]. split; [by vm_compute|]. split; [by vm_compute|].
  split; [by repeat constructor|by vm_compute].
Qed.

(** * C75 *)

(** On the heap a [SmallVec] stays on the heap. *)
Section stays.
  Context {EN : Env} {T : Type} {EL : Elem T} (Cap : N).
  Notation W := (world T).
  Notation MS := (M (svec T * W)).
  Implicit Types (s : svec T) (w : W).

  Definition hp {A} (m : MS A) : Prop :=
    forall s w, is_stack s = false -> is_stack (fst (snd (m (s, w)))) = false.
  Lemma hp_ret {A} (a : A) : hp (ret a). Proof. by intros s w H. Qed.
  Lemma hp_throw {A} p : hp (throw p : MS A). Proof. by intros s w H. Qed.
  Lemma hp_undef {A} u : hp (undef u : MS A). Proof. by intros s w H. Qed.
  Lemma hp_bind {A B} (m : MS A) (k : A -> MS B) : hp m -> (forall a, hp (k a)) -> hp (bind m k).
  Proof.
    intros Hm Hk s w H. unfold bind. specialize (Hm s w H). destruct (m (s, w)) as [[a|p| |u] [s' w']]; try done.
    by apply Hk.
  Qed.
  Lemma hp_get {B} (k : svec T -> MS B) : (forall s, is_stack s = false -> hp (k s)) -> hp (bind get_fst k).
  Proof. intros Hk s w H. unfold bind, get_fst. simpl. by apply Hk. Qed.
  Lemma hp_on_snd {A} (m : M W A) : hp (on_snd m).
  Proof. intros s w H. unfold on_snd. simpl. by destruct (m w). Qed.
  Lemma hp_on_unwind {A} (m : MS A) c : hp m -> hp c -> hp (on_unwind m c).
  Proof.
    intros Hm Hc s w H. unfold on_unwind. specialize (Hm s w H). destruct (m (s, w)) as [[a|p| |u] [s' w']]; try done.
    simpl in Hm. specialize (Hc s' w' Hm). by destruct (c (s', w')) as [[]?].
  Qed.
  Lemma hp_on_heap {A} v (m : M (vec * W) A) : hp (on_heap v m).
  Proof. intros s w _. unfold on_heap. by destruct (m (v, snd (s, w))) as [r [v' w']]. Qed.
  Lemma hp_redirect {A} mk (mv : M (vec * W) A) : hp (redirect mk mv).
  Proof. apply hp_get. intros s H. destruct s as [[k|v] mm]; [done|]. apply hp_on_heap. Qed.
  Lemma hp_put s : is_stack s = false -> hp (put_fst s). Proof. by intros H s' w _. Qed.
  Lemma hp_uadd a b : hp (uadd a b). Proof. unfold uadd. repeat case_match; auto using hp_ret, hp_throw. Qed.
  Lemma hp_usub a b : hp (usub a b). Proof. unfold usub. repeat case_match; auto using hp_ret, hp_throw. Qed.
  Lemma hp_unwrap {A} (r : result A aerr) : hp (unwrap r).
  Proof. unfold unwrap. repeat case_match; auto using hp_ret, hp_throw. Qed.
  Hint Resolve hp_ret hp_throw hp_undef hp_on_snd hp_on_heap hp_redirect hp_uadd hp_usub hp_unwrap hp_put : hp.
  Lemma hp_set_len n : hp (sv_set_len Cap n). Proof. apply hp_redirect. Qed.
  Hint Resolve hp_set_len : hp.
  Ltac hp1 := first [progress eauto 2 with hp | apply hp_get; intros ? ? | apply hp_bind; [|intros ?]
    | apply hp_on_unwind].

  Lemma hp_guarded a b : hp (overflow_guarded_add a b).
  Proof. unfold overflow_guarded_add. repeat (case_match || hp1). Qed.
  Hint Resolve hp_guarded : hp.
  Lemma hp_move n : hp (sv_try_move_to_heap_and_reserve_exact n).
  Proof.
    unfold sv_try_move_to_heap_and_reserve_exact. apply hp_get. intros [[k|v] m] H; [done|]. simpl.
    repeat hp1.
  Qed.
  Hint Resolve hp_move : hp.
  Lemma hp_try_reserve_exact n : hp (sv_try_reserve_exact Cap n).
  Proof. unfold sv_try_reserve_exact. apply hp_get. intros [[k|v] m] H; [done|]. simpl. repeat hp1. Qed.
  Hint Resolve hp_try_reserve_exact : hp.
  Lemma hp_try_reserve n : hp (sv_try_reserve Cap n).
  Proof. unfold sv_try_reserve. repeat hp1. Qed.
  Hint Resolve hp_try_reserve : hp.
  Lemma hp_reserve n : hp (sv_reserve Cap n). Proof. unfold sv_reserve. repeat hp1. Qed.
  Lemma hp_reserve_exact n : hp (sv_reserve_exact Cap n). Proof. unfold sv_reserve_exact. repeat hp1. Qed.
  Hint Resolve hp_reserve hp_reserve_exact : hp.
  Lemma hp_push x : hp (sv_push Cap x). Proof. unfold sv_push. repeat hp1. Qed.
  Lemma hp_read i : hp (sv_read (T:=T) i). Proof. apply hp_redirect. Qed.
  Lemma hp_write i x : hp (sv_write i x). Proof. apply hp_redirect. Qed.
  Hint Resolve hp_read hp_write : hp.
  Hint Resolve hp_push : hp.
  Lemma hp_clones l : hp (sv_push_clones Cap l).
  Proof. induction l as [|x l IH]; simpl; repeat (exact IH || hp1). Qed.
  Lemma hp_push_all it : hp (sv_push_all Cap it).
  Proof. induction it as [|[x|] it IH]; simpl; repeat (exact IH || hp1). Qed.
  Hint Resolve hp_clones hp_push_all : hp.
  Lemma hp_append o : hp (sv_append Cap o).
  Proof.
    unfold sv_append. apply hp_bind; [auto with hp|intros _]. apply hp_get. intros s Hs s' w' H'.
    unfold bind at 1. unfold on_snd. simpl.
    destruct (store_copy _ _ _ _ _ w') as [r w2] eqn:E. destruct r as [d|p| |u]; try done.
    assert (is_stack (SVec d (sv_marker s)) = false) as Hd.
    { destruct s as [[k|v] m]; [done|]. unfold store_copy, store_in in E. cbn [sv_store] in E.
      destruct ((t_size =? 0) || (sv_len o =? 0)); [by injection E as <- _|].
      unfold bind in E. destruct (store_out (sv_store o) 0 (sv_len o) w') as [[l|p| |u] w3]; try done.
      destruct (copy_in (vdata v) _ l w3) as [[[]|p| |u] w4]; try done. by injection E as <- _. }
    eapply hp_bind; [by apply hp_put| |done]. intros _. repeat hp1.
  Qed.
  Hint Resolve hp_append : hp.
  Lemma hp_sexec op : op <> STryMoveToStack -> hp (sexec Cap op).
  Proof.
    intros Hop. destruct op; try done; cbn [sexec];
      unfold sv_pop, sv_insert, sv_remove, sv_swap_remove, sv_truncate, sv_clear, sv_extend_from_slice,
        sv_extend, sv_shrink_to, sv_shrink_to_fit, sv_move_to_heap, sv_index, sv_assign, sv_get, sv_as_slice.
    all: try (repeat (case_match || hp1); done).
    apply hp_bind; [by intros s0 w H|]. intros _. apply hp_ret.
  Qed.
  Lemma hp_srun ops : forall s w outs s' w', Forall (fun op => op <> STryMoveToStack) ops ->
    is_stack s = false -> srun Cap ops (s, w) = (outs, (s', w')) ->
    is_stack s' = false /\ Forall (fun o => fst o = false) outs.
  Proof.
    induction ops as [|op ops IH]; intros s w outs s' w' Hops Hs He; simpl in He.
    { by injection He as <- <- _. }
    apply Forall_cons in Hops as [Hop Hops]. pose proof (hp_sexec op Hop s w Hs) as Hs1. rewrite Hs in He.
    destruct (sexec Cap op (s, w)) as [[a|p| |u] [s1 w1]] eqn:E; simpl in Hs1.
    1,2: destruct (srun Cap ops (s1, w1)) as [outs2 [s2 w2]] eqn:E2; injection He as <- <- <-;
      destruct (IH _ _ _ _ _ Hops Hs1 E2) as [H1 H2]; split; [done|by constructor].
    all: injection He as <- <- <-; split; [done|by repeat constructor].
  Qed.
End stays.

(** A [SmallVec] that was moved to the heap: from then on, as long as it is not moved back, every
    call, [insert], [remove] and [truncate] included, behaves as on a list, and nothing is lost. *)
Lemma p_C75_spilled_history : forall (EN : Env) (T : Type) (EL : Elem T) (Cap : N) (w : world T) ops,
  0 < t_size -> no_drop_panic -> wok w -> Cap * t_size <= isize_max + 1 - t_align ->
  (total_sdemand ops + 8) * t_size <= isize_max + 1 - t_align ->
  Forall (calm_heap e_strict) ops ->
  exists r s0 w0, sv_move_to_heap (sv_new Cap, w) = (r, (s0, w0)) /\
  ((r = Panic PUnwrap /\ refuses /\ s0 = sv_new Cap /\ heap w0 = heap w) \/
   (r = Ret tt /\ is_stack s0 = false /\
    exists outs s w1 w2 ins xs ds,
      srun Cap ops (s0, w0) = (outs, (s, w1)) /\ Forall (fun o => fst o = false) outs /\
      strace refuses t_clone [] ops ins outs xs ds [] /\
      sv_slice s w1 = (Ret xs, w1) /\ sv_len s = llen xs /\ is_stack s = false /\
      sv_drop_val s w1 = (Ret tt, w2) /\ heap w2 = heap w /\ drops w2 = drops w ++ ds ++ xs /\
      ins ≡ₚ concat (handed_out <$> outs.*2) ++ ds ++ xs)).
Proof.
  intros EN T EL Cap w ops Hz Hnd Hw HC Hf Hc.
  destruct (new_sok Hz Cap w Hw) as [Hr0 (Hb0&_)].
  destruct (move_ok Hz Cap w (sk_new Cap) MNone [] 0 Hr0) as (r&s0&w0&He&Hk&Hr&Hcase).
  { eapply (fits_le Hz); [|exact Hf]. clear. simpl. lia. }
  assert (sv_move_to_heap (sv_new Cap, w) = unwrap r (s0, w0)) as He'
    by (unfold sv_move_to_heap; by erewrite bind_Ret by exact He).
  destruct Hk as (Hk1&Hk2&_). rewrite app_nil_r in Hk2.
  destruct Hcase as [(->&v&Hv&Hvc)|(->&->&Hrf)].
  2: { eexists _, _, w0. split; [exact He'|]. left. done. }
  eexists _, s0, w0. split; [exact He'|]. right. split; [done|].
  assert (is_stack s0 = false) as Hs0 by (unfold is_stack; by rewrite Hv). split; [done|].
  pose proof (min_cap_le Hz) as Hm.
  destruct (srun_any Cap Hz HC ops 0 w0 s0 [] Hr) as (outs&s&w1&Hrun&Hcase).
  { unfold hcap. rewrite Hv, Hvc. clear -Hm. simpl. lia. } { simpl. lia. } { by rewrite N.add_0_l. } { done. }
  assert (Forall (fun op => op <> STryMoveToStack) ops) as Hno.
  { eapply Forall_impl; [exact Hc|]. by intros [] Ho. }
  destruct (hp_srun Cap ops _ _ _ _ _ Hno Hs0 Hrun) as [Hs1 Hout].
  destruct Hcase as [(ins&xs&ds&ls&Ht&Hr1&[Hv1 Hds]&_)|(pre&op&post&ins&outs'&xs&ds&ls&b&u&->&->&Ht&Hu)].
  2: { exfalso. apply Forall_app in Hc as [_ Hc]. apply Forall_cons in Hc as [Hc _].
       apply Forall_app in Hout as [_ Hout]. apply Forall_cons in Hout as [Hb _]. simpl in Hb. subst b.
       destruct op; simpl in Hu, Hc; try done; try (by destruct Hu as [? _]).
       - destruct Hu as [Hs _]. congruence.
       - destruct Hu as (_&_&->&_). clear -Hc. lia. }
  assert (ls = []) as ->.
  { eapply strace_leak; [exact Ht|]. intros k n b o _ Ho. exact (Forall_lookup_1 _ _ _ _ Hout Ho). }
  destruct (drop_val_sok Hz Cap w1 s xs Hr1 Hnd) as (w2&Hdr&Hg&Hd2&_).
  exists outs, s, w1, w2, ins, xs, ds. split; [done|]. split; [done|]. split; [done|].
  split; [by apply (slice_sok Cap Hz)|]. split; [by apply (srep_len Hz Cap HC) in Hr1 as (->&_)|].
  split; [done|]. split; [done|]. split; [by rewrite Hg, Hv1, Hk1|].
  split; [by rewrite Hd2, Hds, Hk2, app_assoc|].
  pose proof (strace_ledger _ _ _ _ _ _ _ _ _ Ht) as Hl. simpl in Hl. rewrite Hl. done.
Qed.
Lemma x_C75_spilled_history_ex :
  let ops := [SPush 1; SInsert 1 2; SInsert 0 3; SRemove 0; SExtendIter [Some 4; Some 5; None] 3;
              STruncate 3; SAsSlice; SInsert 9 9; SAsSlice] in
  wok w_start /\ 4 * @t_size N num_drop <= isize_max + 1 - 8 /\
  (total_sdemand ops + 8) * @t_size N num_drop <= isize_max + 1 - 8 /\ Forall (calm_heap true) ops /\
  @sdemo_outs env_debug N num_drop 4 w_start (SMoveToHeap :: ops)
  = [(true, Ret RUnit); (false, Ret RUnit); (false, Ret RUnit); (false, Ret RUnit); (false, Ret (RVal 3));
     (false, Panic PUser); (false, Ret RUnit); (false, Ret (RList [1; 2; 4])); (false, Panic PAssert);
     (false, Ret (RList [1; 2; 4]))].
Proof.
  split; [apply w_start_ok|]. split; [by vm_compute|]. split; [by vm_compute|].
  split; [by repeat constructor|by vm_compute].
Qed.

(** * C76 *)

(** Any history of calm calls on a new [String] edits the sequence of characters; the bytes are the
    UTF-8 encoding of the text at the end, and dropping the string releases all memory. *)
Lemma p_C76_string_history : forall (EN : Env) (w : world N) ops,
  wok w -> N.max (2 * total_tdemand ops) 8 <= isize_max -> Forall args_ok ops ->
  Forall (calm_text e_strict) ops ->
  exists v0 w0 outs v w1 w2 cs bs,
    str_new w = (Ret v0, w0) /\ trun ops (v0, w0) = (outs, (v, w1)) /\
    ttrace refuses [] ops outs cs /\ vec_as_slice v w1 = (Ret bs, w1) /\ text cs bs /\
    v_len v = tlen cs /\ vec_drop_val v w1 = (Ret tt, w2) /\ heap w2 = heap w.
Proof.
  intros EN w ops Hw Hf Ha Hc.
  destruct (new_born z8 w Hw) as (v0&w0&Hn&Hr1&(Hb1&_)&_&Hc0).
  assert (strep w0 v0 []) as Hs0 by (exists []; split; [constructor|done]).
  assert (Forall not_mut ops) as Hm by (eapply Forall_impl; [exact Hc|by intros []]).
  destruct (trun_ok ops 0 w0 v0 [] Hs0) as (outs&v&w1&Hrun&Hcase); try done; [lia|].
  destruct Hcase as [(cs&Ht&(bs&Htx&Hr)&Hv&_)|(pre&op&post&outs'&cs&u&->&->&Ht&Hu)].
  2: { exfalso. apply Forall_app in Hc as [_ Hc]. apply Forall_cons in Hc as [Hc _].
       destruct Hu as [(Hst&->&[(c&->&Hge)|[(i&c&->&_)|(p1&c&p2&h&->&Hge)]])|([->| ->]&_)]; simpl in Hc;
         rewrite ?Hst in Hc; [| | |done|by apply N.lt_irrefl in Hc].
       - destruct Hc as [?|?]; [done|lia].
       - done.
       - destruct Hc as [?|Hc]; [done|]. specialize (Hc c). revert Hc. rewrite elem_of_app, elem_of_cons.
         intros Hc. specialize (Hc (or_intror (or_introl eq_refl))). lia. }
  destruct (vec_drop_val_gone z8 w1 v bs Hr nd8) as (w2&Hd&Hg&_).
  exists v0, w0, outs, v, w1, w2, cs, bs. split; [exact Hn|]. split; [done|]. split; [done|].
  split; [by apply (as_slice_ok z8)|]. split; [done|].
  split; [rewrite (proj1 Hr); by apply text_len|]. split; [done|]. rewrite Hg. by rewrite <-Hb1.
Qed.
Lemma x_C76_string_history_ex :
  let ops := [TPushStr [8364; 97]; TPush 98; TInsertStr 3 [233]; TRemove 3; TRemove 1; TPop; TExtendStrs [Some [100; 101]; None];
              TTruncate 2; TSlice (LIncl 3) LOpen; TUpper; TAsStr] in
  wok w_start /\ N.max (2 * total_tdemand ops) 8 <= isize_max /\ Forall args_ok ops /\
  Forall (calm_text true) ops /\
  tdemo_outs (EN:=env_debug) w_start ops
  = [Ret RUnit; Ret RUnit; Ret RUnit; Ret (RVal 233); Panic PIndex; Ret (ROpt (Some 98)); Panic PUser;
     Panic PAssert; Ret (RList [97; 100; 101]); Ret RUnit; Ret (RList [226; 130; 172; 65; 68; 69])].
Proof.
  split; [apply w_start_ok|]. split; [by vm_compute|]. split.
  { assert (forall ds, Some ds ∈ [Some [100; 101]; None] -> Forall scalar ds) as He.
    { intros ds Hd. rewrite !elem_of_cons, elem_of_nil in Hd. destruct Hd as [[= ->]|[?|?]]; [by args|done|done]. }
    do 6 (apply Forall_cons; split; [by args|]). apply Forall_cons; split; [exact He|]. by args. }
  split; [|by vm_compute].
  do 11 (apply Forall_cons; split; [simpl; (exact I || (right; reflexivity))|]). done.
Qed.

(** * C77 *)

(** Decoding UTF-16 without undefined behaviour: always in the plain reading, and in the strict one
    when all units are ASCII. *)
Lemma p_C77_from_utf16 : forall (EN : Env) (w : world N) us,
  wok w -> Forall (fun u => u < 65536) us -> 4 * llen us <= isize_max ->
  (e_strict = true -> Forall (fun u => u < 128) us) ->
  exists r w', str_from_utf16 us w = (r, w') /\
  ((exists cs v bs w2, text16 cs us /\ r = Ret (Some v) /\ vec_as_slice v w' = (Ret bs, w') /\ text cs bs /\
      vec_drop_val v w' = (Ret tt, w2) /\ heap w2 = heap w) \/
   ((~ exists cs, text16 cs us) /\ r = Ret None /\ heap w' = heap w) \/
   (r = Panic PUnwrap /\ refuses /\ heap w' = heap w)).
Proof.
  intros EN w us Hw Hus Hl Ha. destruct (str_from_utf16_ok w us Hw Hus Hl) as (r&w'&He&Hcase).
  exists r, w'. split; [done|].
  destruct Hcase as [(cs&v&Ht&->&(bs&Hb&Hr)&l&Hbo&_)|[(?&?&l&?&_)|[(?&?&l&?&_)|(Hst&_&u&Hu&Hge)]]].
  - left. destruct (vec_drop_val_gone z8 w' v bs Hr nd8) as (w2&Hd&Hg&_).
    exists cs, v, bs, w2. split; [done|]. split; [done|]. split; [by apply (as_slice_ok z8)|].
    split; [done|]. split; [done|]. by rewrite Hg.
  - right. left. done.
  - right. right. done.
  - exfalso. specialize (Ha Hst). rewrite Forall_forall in Ha. specialize (Ha _ Hu). lia.
Qed.
Lemma x_C77_from_utf16_ex : wok w_start /\ Forall (fun u => u < 65536) [72; 233; 55357; 56832] /\
  4 * llen [72; 233; 55357; 56832] <= isize_max /\ @e_strict (@e_profile env_release) = false /\
  (let '(r, w) := @str_from_utf16 env_release [72; 233; 55357; 56832] w_start in
   match r with Ret (Some v) => fst (vec_as_slice v w) | _ => Abort end)
  = Ret [72; 195; 169; 240; 159; 152; 128].
Proof.
  split; [apply w_start_ok|]. split; [by repeat constructor|]. split; [by vm_compute|]. split; [done|by vm_compute].
Qed.

(** * C78 *)

(** Extending by characters: the same restriction. *)
Lemma p_C78_extend_chars : forall (EN : Env) v (w : world N) cs it h,
  has_text v w cs -> (forall c, Some c ∈ it -> scalar c) ->
  N.max (2 * (vcap v + (4 * llen it + h))) 8 <= isize_max ->
  (e_strict = true -> forall c, Some c ∈ it -> c < 128) ->
  exists r v' w' cs' bs, str_extend_chars it h (v, w) = (r, (v', w')) /\
    appended_it refuses cs (option_map (fun c => [c]) <$> it) r cs' /\
    vec_as_slice v' w' = (Ret bs, w') /\ text cs' bs /\
    delete_ptr (vdata v') (heap w') = delete_ptr (vdata v) (heap w).
Proof.
  intros EN v w cs it h Ht Hsc Hf Ha.
  destruct (p_C48_extend_chars_partial EN v w cs it h Ht Hsc Hf)
    as (r&v'&w'&He&[(cs'&bs&H1&H2&H3&H4)|(Hst&_&c&Hc&Hge)]).
  - exists r, v', w', cs', bs. done.
  - specialize (Ha Hst c Hc). lia.
Qed.
Lemma x_C78_extend_chars_ex : @has_text env_debug (fst t1) (snd t1) [97; 233; 122] /\
  (forall c, Some c ∈ [Some 65; Some 66; None] -> scalar c) /\
  (@e_strict (@e_profile env_debug) = true -> forall c, Some c ∈ [Some 65; Some 66; None] -> c < 128) /\
  (let '(r, (v, w)) := str_extend_chars (EN:=env_debug) [Some 65; Some 66; None] 2 t1 in
   (r, fst (vec_as_slice v w))) = (Panic PUser, Ret [97; 195; 169; 122; 65; 66]).
Proof.
  split; [by eexists; apply t1_text|].
  assert (forall c, Some c ∈ [Some 65; Some 66; None] -> c = 65 \/ c = 66) as Hel.
  { intros c Hc. rewrite !elem_of_cons, elem_of_nil in Hc. destruct Hc as [[= ->]|[[= ->]|[?|?]]]; auto; done. }
  split; [|split; [|by vm_compute]].
  - intros c [->| ->]%Hel; scal.
  - intros _ c [->| ->]%Hel; lia.
Qed.
