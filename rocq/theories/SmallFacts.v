(** Proofs of the statements collected in PropertiesSmall.v: [SmallVec]. *)
From Verif Require Export SmallProofs4 Witness.
From Coq Require Import ZifyBool ZifyNat ZifyN.

Section sreach.
  Context {EN : Env} {T : Type} {EL : Elem T} (Cap : N).
  Notation W := (world T).

  (** [sreached_from Cap w0 s w xs]: [s] was created by [SmallVec::<T, Cap>::new] in [w0], a history of
      calls, none of them undefined, led to the world [w], and [s] shows the elements [xs] there. *)
  Definition sreached_from (w0 : W) (s : svec T) (w : W) (xs : list T) : Prop :=
    exists ops outs, wok w0 /\ Cap * t_size <= isize_max + 1 - t_align /\
      (total_sdemand ops + 8) * t_size <= isize_max + 1 - t_align /\
      srun Cap ops (sv_new Cap, w0) = (outs, (s, w)) /\ Forall (fun o => defined o.2) outs /\
      sv_slice s w = (Ret xs, w).
  Definition sreached (s : svec T) (w : W) (xs : list T) : Prop := exists w0, sreached_from w0 s w xs.

  Context (Hz : 0 < t_size).
  Lemma slice_sok w s xs : srep Cap w s xs -> sv_slice s w = (Ret xs, w).
  Proof. intros Hr. unfold sv_slice. by rewrite (as_slice_sok Cap Hz _ _ _ Hr). Qed.
  Lemma new_srun ops w outs s w1 :
    no_drop_panic -> wok w -> fits Cap -> fits (total_sdemand ops + 8) ->
    srun Cap ops (sv_new Cap, w) = (outs, (s, w1)) -> Forall (fun o => defined o.2) outs ->
    exists ins xs ds ls, strace refuses t_clone [] ops ins outs xs ds ls /\ srep Cap w1 s xs /\
      srest s w1 = heap w /\ drops w1 = drops w ++ ds.
  Proof.
    intros Hnd Hw HC Hf He Hd.
    destruct (new_sok Hz Cap w Hw) as [Hr (Hb&_)].
    destruct (srun_any Cap Hz HC ops 0 w (sv_new Cap) [] Hr) as (o2&s3&w3&He'&Hcase);
      [by vm_compute|simpl; lia|by rewrite N.add_0_l|done|].
    rewrite He in He'. injection He' as <- <- <-.
    destruct Hcase as [(ins&xs&ds&ls&Ht&Hr3&[Ha1 Ha2]&_)|(pre&op&post&ins&outs'&xs&ds&ls&b&u&_&->&_)].
    2: { apply Forall_app in Hd as [_ Hd]. inversion Hd as [|?? [[? ?]|[? ?]] _]; done. }
    exists ins, xs, ds, ls. split; [done|]. split; [done|]. split; [by rewrite Ha1, Hb|done].
  Qed.
  (** The same without an assumption on the destructors. *)
  Lemma new_srun_gen ops w outs s w1 :
    wok w -> fits Cap -> fits (total_sdemand ops + 8) ->
    srun Cap ops (sv_new Cap, w) = (outs, (s, w1)) -> Forall (fun o => defined o.2) outs ->
    exists ins xs ds ls, dstrace drop_panics refuses t_clone [] ops ins outs xs ds ls /\ srep Cap w1 s xs /\
      srest s w1 = heap w /\ drops w1 = drops w ++ ds.
  Proof.
    intros Hw HC Hf He Hd.
    destruct (new_sok Hz Cap w Hw) as [Hr (Hb&_)].
    destruct (srun_gen Cap Hz HC ops 0 w (sv_new Cap) [] Hr) as (o2&s3&w3&He'&Hcase);
      [by vm_compute|simpl; lia|by rewrite N.add_0_l|].
    rewrite He in He'. injection He' as <- <- <-.
    destruct Hcase as [(ins&xs&ds&ls&Ht&Hr3&[Ha1 Ha2]&_)|(pre&op&post&ins&outs'&xs&ds&ls&b&o&_&->&_&Ho)].
    2: { apply Forall_app in Hd as [_ Hd]. inversion Hd as [|?? [[? ?]|[? ?]] _];
         destruct Ho as [(?&?&_)|[? _]]; simpl in *; congruence. }
    exists ins, xs, ds, ls. split; [done|]. split; [done|]. split; [by rewrite Ha1, Hb|done].
  Qed.
  Lemma sreached_from_srep w0 s w xs :
    sreached_from w0 s w xs -> srep Cap w s xs /\ fits Cap /\ srest s w = heap w0.
  Proof.
    intros (ops&outs&Hw&HC&Hf&He&Hd&Hs).
    destruct (new_srun_gen ops w0 outs s w Hw HC Hf He Hd) as (ins&ys&ds&ls&_&Hr&Hh&_).
    rewrite (slice_sok _ _ _ Hr) in Hs. injection Hs as ->. done.
  Qed.
  Lemma sreached_srep s w xs : sreached s w xs -> srep Cap w s xs /\ fits Cap.
  Proof.
    intros [w0 Hs]. destruct (sreached_from_srep _ _ _ _ Hs) as (?&?&_). done.
  Qed.
End sreach.

(** An older vector survives what happens to a newer one. *)
Lemma sreached_frame {EN : Env} {T} {EL : Elem T} (C1 C2 : N) (w0 : world T) s1 w1 xs s2 w2 ys :
  0 < t_size -> sreached_from C1 w0 s1 w1 xs -> sreached_from C2 w1 s2 w2 ys ->
  srep C1 w2 s1 xs /\ srep C2 w2 s2 ys.
Proof.
  intros Hz H1 H2. destruct (sreached_from_srep C1 Hz _ _ _ _ H1) as ([Hw1 Hr1]&_&_).
  destruct (sreached_from_srep C2 Hz _ _ _ _ H2) as (Hr2&_&Hh). split; [|done].
  pose proof Hr2 as [Hw2 _]. split; [done|]. destruct (sv_store s1) as [k|v]; [done|].
  destruct Hr1 as [Hl [rest (Hw&Hs&Hb&Hm)]]. split; [done|]. exists rest.
  pose proof Hw2 as [Hc Hf]. split; [done|]. split; [done|]. split; [done|].
  destruct (vdata v) as [|b]; [done|]. destruct Hm as (?&?&Hlk).
  assert (heap w2 !! b = heap w1 !! b) as Hb2.
  { unfold srest in Hh. rewrite <-Hh in Hlk |- *. destruct (sdata s2) as [|b2]; [done|]. simpl in *.
    apply lookup_delete_Some in Hlk as [? Hlk]. by rewrite lookup_delete_ne. }
  rewrite Hb2. split; [done|]. split; [|done].
  destruct (N.lt_ge_cases b (next_id w2)) as [|Hge]; [done|]. specialize (Hf b Hge). congruence.
Qed.

(** Runs a history on a new vector, for examples. *)
Definition sdemo_outs {EN : Env} {T} {EL : Elem T} (Cap : N) (w : world T) (ops : list (sop T))
  : list (bool * res (vret T)) := fst (srun Cap ops (sv_new Cap, w)).
Definition sdemo {EN : Env} {T} {EL : Elem T} (Cap : N) (w : world T) (ops : list (sop T))
  : svec T * world T := snd (srun Cap ops (sv_new Cap, w)).
Lemma sdemo_reached {EN : Env} {T} {EL : Elem T} (Cap : N) (w : world T) ops xs :
  wok w -> forallb definedb (snd <$> sdemo_outs Cap w ops) = true ->
  Cap * t_size <=? limit = true -> (total_sdemand ops + 8) * t_size <=? limit = true ->
  fst (sv_slice (fst (sdemo Cap w ops)) (snd (sdemo Cap w ops))) = Ret xs ->
  snd (sv_slice (fst (sdemo Cap w ops)) (snd (sdemo Cap w ops))) = snd (sdemo Cap w ops) ->
  sreached Cap (fst (sdemo Cap w ops)) (snd (sdemo Cap w ops)) xs.
Proof.
  intros Hw Hp HC Hf Ha Hb. unfold sdemo, sdemo_outs in *.
  destruct (srun Cap ops _) as [outs [s w']] eqn:E. simpl in *.
  exists w, ops, outs. split; [done|]. split; [by apply N.leb_le|]. split; [by apply N.leb_le|].
  split; [done|]. split.
  - apply definedb_ok in Hp. rewrite Forall_fmap in Hp. exact Hp.
  - destruct (sv_slice s w') as [r w2]. simpl in *. by subst.
Qed.
(** Inline capacity 4 holding 1, 2, 3 inline; the same spilled to the heap. *)
Definition sops_in : list (sop N) := [SPush 1; SPush 2; SInsert 1 9; SRemove 1; SPush 3].
Definition sops_out : list (sop N) := [SPush 1; SPush 2; SMoveToHeap; SInsert 1 9; SRemove 1; SPush 3].
Notation sin EN EL := (@sdemo EN N EL 4 w_start sops_in).
Notation sout EN EL := (@sdemo EN N EL 4 w_start sops_out).
Lemma sin_reached : @sreached env_debug N num_drop 4 (fst (sin env_debug num_drop)) (snd (sin env_debug num_drop)) [1; 2; 3].
Proof. by apply sdemo_reached; [apply w_start_ok|..]; vm_compute. Qed.
Lemma sout_reached : @sreached env_debug N num_drop 4 (fst (sout env_debug num_drop)) (snd (sout env_debug num_drop)) [1; 2; 3].
Proof. by apply sdemo_reached; [apply w_start_ok|..]; vm_compute. Qed.

Ltac sreach Hr := let H := fresh in
  match type of Hr with sreached _ _ _ _ =>
    apply sreached_srep in Hr as [Hr H]; [|assumption]; rename H into HCap end.

(** * C31 *)

(** Two small vectors of any inline capacities, inline or on the heap, the second built after the
    first. *)
Lemma p_C31_small_compare : forall (EN : Env) (T : Type) (EL : Elem T) (C1 C2 : N) (w0 : world T) s1 w1 xs s2 w2 ys
    (eqb : T -> T -> bool) (cmp : T -> T -> comparison),
  0 < t_size -> sreached_from C1 w0 s1 w1 xs -> sreached_from C2 w1 s2 w2 ys ->
  (exists b, sv_eq eqb s1 s2 w2 = (Ret b, w2) /\
     (b = true <-> Forall2 (fun x y => eqb x y = true) xs ys)) /\
  (exists c, sv_cmp cmp s1 s2 w2 = (Ret c, w2) /\ lex cmp xs ys c).
Proof.
  intros EN T EL C1 C2 w0 s1 w1 xs s2 w2 ys eqb cmp Hz H1 H2.
  destruct (sreached_frame C1 C2 _ _ _ _ _ _ _ Hz H1 H2) as [Hr1 Hr2].
  unfold sv_eq, sv_cmp. split.
  - eexists. split; [|apply slice_eq_spec]. erewrite bind_Ret by (by apply (slice_sok C1 Hz)).
    by erewrite bind_Ret by (by apply (slice_sok C2 Hz)).
  - eexists. split; [|apply slice_cmp_spec]. erewrite bind_Ret by (by apply (slice_sok C1 Hz)).
    by erewrite bind_Ret by (by apply (slice_sok C2 Hz)).
Qed.
(** The hasher is fed with the length and then with the elements in order. *)
Lemma p_C31_small_hash : forall (EN : Env) (T : Type) (EL : Elem T) (Cap : N) (H : Type) (hlen : H -> N -> H)
    (hel : H -> T -> H) h s (w : world T) xs,
  0 < t_size -> sreached Cap s w xs ->
  sv_hash hlen hel h s w = (Ret (fold_left hel xs (hlen h (llen xs))), w).
Proof.
  intros EN T EL Cap H hlen hel h s w xs Hz Hr. sreach Hr. unfold sv_hash.
  by erewrite bind_Ret by (by apply (slice_sok Cap Hz)).
Qed.
Lemma x_C31_small_ex :
  let st1 := sin env_debug num_drop in
  let st2 := @sdemo env_debug N num_drop 1 (snd st1) [SReserve 10; SPush 1; SPush 2; SPush 4] in
  @sreached env_debug N num_drop 4 (fst st1) (snd st1) [1; 2; 3] /\ is_stack (fst st1) = true /\
  @sv_slice N num_drop (fst st2) (snd st2) = (Ret [1; 2; 4], snd st2) /\ is_stack (fst st2) = false /\
  fst (@sv_cmp N num_drop N.compare (fst st1) (fst st2) (snd st2)) = Ret Lt.
Proof. split; [apply sin_reached|]. by repeat split; vm_compute. Qed.

(** * C32 *)

(** Every history on a new [SmallVec] of any inline capacity either returns, call by call, what the
    list specification says, or runs into one of the undefined calls listed in SpecSmall.v, having
    behaved like a list until then. *)
Lemma p_C32_small_vec_is_a_list_partial : forall (EN : Env) (T : Type) (EL : Elem T) (Cap : N) (w : world T) ops,
  0 < t_size -> no_drop_panic -> wok w -> Cap * t_size <= isize_max + 1 - t_align ->
  (total_sdemand ops + 8) * t_size <= isize_max + 1 - t_align ->
  exists outs s w1, srun Cap ops (sv_new Cap, w) = (outs, (s, w1)) /\
    ((exists ins xs ds ls, strace refuses t_clone [] ops ins outs xs ds ls /\
        sv_slice s w1 = (Ret xs, w1) /\ sv_len s = llen xs) \/
     (exists pre op post outs' ins xs ds ls b u, ops = pre ++ op :: post /\ outs = outs' ++ [(b, UB u)] /\
        strace refuses t_clone [] pre ins outs' xs ds ls /\
        unsound_small e_strict e_checks Cap min_non_zero_cap b xs op u)).
Proof.
  intros EN T EL Cap w ops Hz Hnd Hw HC Hf.
  destruct (new_sok Hz Cap w Hw) as [Hr _].
  destruct (srun_any Cap Hz HC ops 0 w (sv_new Cap) [] Hr) as (outs&s&w1&He&Hcase);
    [by vm_compute|simpl; lia|by rewrite N.add_0_l|done|].
  exists outs, s, w1. split; [done|].
  destruct Hcase as [(ins&xs&ds&ls&Ht&Hr'&_)|(pre&op&post&ins&outs'&xs&ds&ls&b&u&->&->&Ht&Hu)].
  - left. exists ins, xs, ds, ls. split; [done|]. split; [by apply (slice_sok Cap Hz)|].
    apply (srep_len Hz Cap HC) in Hr' as (->&_). done.
  - right. exists pre, op, post, outs', ins, xs, ds, ls, b, u. done.
Qed.
Lemma x_C32_small_vec_is_a_list_ex :
  let ops := sops_in ++ [SPush 4; SSwapRemove 0; SIndex 7; SPush 5; SPush 6; SAppend [7; 8]; STruncate 3; SAsSlice] in
  wok w_start /\ 4 * @t_size N num_drop <= isize_max + 1 - 8 /\
  (total_sdemand ops + 8) * @t_size N num_drop <= isize_max + 1 - 8 /\
  @sdemo_outs env_debug N num_drop 4 w_start ops
  = [(true, Ret RUnit); (true, Ret RUnit); (true, Ret RUnit); (true, Ret (RVal 9)); (true, Ret RUnit);
     (true, Ret RUnit); (true, Ret (RVal 1)); (true, Panic PUnwrap); (true, Ret RUnit);
     (true, Ret RUnit); (false, Ret RUnit); (false, Ret RUnit); (false, Ret (RList [4; 2; 3]))].
Proof. split; [apply w_start_ok|]. split; [by vm_compute|]. split; by vm_compute. Qed.

(** Valid calls that are undefined: [remove] from a full inline vector; with library preconditions
    checked, [insert] at the end of an inline vector that stays inline, and [swap_remove] of the last
    inline element. *)
Lemma p_C32_small_vec_is_a_list_refuted : forall (EN : Env) (T : Type) (EL : Elem T) (Cap : N) s (w : world T) xs,
  0 < t_size -> sreached Cap s w xs -> is_stack s = true ->
  (forall i, llen xs = Cap -> i < llen xs -> fst (sv_remove Cap i (s, w)) = UB OutOfBounds) /\
  (forall x, e_strict = true -> llen xs + N.max (min_non_zero_cap - Cap) 1 <= Cap ->
     fst (sv_insert Cap (llen xs) x (s, w)) = UB Precond) /\
  (e_strict = true -> xs <> [] -> fst (sv_swap_remove Cap (llen xs - 1) (s, w)) = UB Overlap).
Proof.
  intros EN T EL Cap s w xs Hz Hr Hst. sreach Hr.
  split; [|split].
  - intros i Hl Hi. destruct s as [[k|v] m]; [|done]. destruct Hr as [_ Hr]. simpl in Hr. unfold sv_remove.
    by erewrite redirect_stack by (by eapply (sk_remove_full Hz Cap)).
  - intros x Hs Hro. destruct (insert_undef_ub Hz Cap HCap w s xs (llen xs) x Hr) as [st He].
    + split; [done|]. split; [done|]. left. split; [done|]. by left.
    + by rewrite He, Hs.
  - intros Hs Hne. destruct s as [[k|v] m]; [|done]. destruct Hr as [_ Hr]. simpl in Hr. unfold sv_swap_remove.
    by erewrite redirect_stack by (by eapply (sk_swap_remove_last Hz Cap)).
Qed.
Lemma x_C32_small_vec_is_a_list_refuted_ex :
  let full := @sdemo env_debug N num_drop 4 w_start (sops_in ++ [SPush 4]) in
  @sreached env_debug N num_drop 4 (fst full) (snd full) [1; 2; 3; 4] /\ is_stack (fst full) = true /\
  fst (@sv_remove env_debug N num_drop 4 0 full) = UB OutOfBounds /\
  fst (@sv_insert env_debug N num_drop 4 3 9 (sin env_debug num_drop)) = UB Precond.
Proof.
  split; [by apply sdemo_reached; [apply w_start_ok|..]; vm_compute|]. by repeat split; vm_compute.
Qed.

(** * C33 *)

(** Every history without undefined calls, ended by dropping the vector: the heap is as before, and
    every value that came in was handed back once, destroyed once or lost ([ls]); nothing is lost
    unless [truncate] was called while the elements were inline. *)
Lemma p_C33_small_ledger_partial : forall (EN : Env) (T : Type) (EL : Elem T) (Cap : N) (w : world T) ops outs s w1,
  0 < t_size -> no_drop_panic -> wok w -> Cap * t_size <= isize_max + 1 - t_align ->
  (total_sdemand ops + 8) * t_size <= isize_max + 1 - t_align ->
  srun Cap ops (sv_new Cap, w) = (outs, (s, w1)) -> Forall (fun o => defined o.2) outs ->
  exists w2 ins xs ds ls destroyed,
    sv_drop_val s w1 = (Ret tt, w2) /\ heap w2 = heap w /\ drops w2 = drops w ++ destroyed /\
    strace refuses t_clone [] ops ins outs xs ds ls /\
    ins ≡ₚ concat (handed_out <$> outs.*2) ++ destroyed ++ ls /\
    ((forall k n b o, ops !! k = Some (STruncate n) -> outs !! k = Some (b, o) -> b = false) -> ls = []).
Proof.
  intros EN T EL Cap w ops outs s w1 Hz Hnd Hw HC Hf He Hd.
  destruct (new_srun Cap Hz ops w outs s w1 Hnd Hw HC Hf He Hd) as (ins&xs&ds&ls&Ht&Hr&Hv&Hds).
  destruct (drop_val_sok Hz Cap w1 s xs Hr Hnd) as (w2&Hdr&Hg&Hd2&_).
  exists w2, ins, xs, ds, ls, (ds ++ xs). split; [done|]. split; [by rewrite Hg|].
  split; [by rewrite Hd2, Hds, app_assoc|]. split; [done|]. split.
  - pose proof (strace_ledger _ _ _ _ _ _ _ _ _ Ht) as Hl. simpl in Hl. rewrite Hl. solve_Permutation.
  - by eapply strace_leak.
Qed.
Lemma x_C33_small_ledger_ex :
  let ops := sops_in ++ [SPush 4; SAssign 0 7; SPush 5; SPop; STruncate 2] in
  let st := @sdemo env_debug N num_drop 4 w_start ops in
  wok w_start /\ forallb definedb (snd <$> @sdemo_outs env_debug N num_drop 4 w_start ops) = true /\
  drops (snd (@sv_drop_val N num_drop (fst st) (snd st))) = [1; 3; 4; 7; 2] /\
  map_to_list (heap (snd (@sv_drop_val N num_drop (fst st) (snd st)))) = map_to_list (heap w_start).
Proof. split; [apply w_start_ok|]. by repeat split; vm_compute. Qed.

(** [truncate] of an inline vector destroys nothing, and the elements cut off are never destroyed. *)
Lemma p_C33_small_ledger_refuted : forall (EN : Env) (T : Type) (EL : Elem T) (Cap : N) s (w : world T) xs n,
  0 < t_size -> no_drop_panic -> sreached Cap s w xs -> is_stack s = true -> n < llen xs ->
  exists s' w', sv_truncate Cap n (s, w) = (Ret tt, (s', w)) /\ sv_drop_val s' w = (Ret tt, w') /\
    drops w' = drops w ++ take (N.to_nat n) xs.
Proof.
  intros EN T EL Cap s w xs n Hz Hnd Hr Hst Hn. sreach Hr. destruct s as [[k|v] m]; [|done].
  destruct Hr as [Hw Hr]. simpl in Hr.
  destruct (sk_truncate_ok Hz Cap k xs n w Hr) as (k'&He&Hr').
  assert (srep Cap w (SVec (Stack k') m) (take (N.to_nat n) xs)) as Hs by (by split).
  destruct (drop_val_sok Hz Cap w _ _ Hs Hnd) as (w2&Hdr&_&Hd2&_).
  eexists _, w2. split; [unfold sv_truncate; by apply redirect_stack|]. split; [exact Hdr|done].
Qed.
Lemma x_C33_small_ledger_refuted_ex :
  @sreached env_debug N num_drop 4 (fst (sin env_debug num_drop)) (snd (sin env_debug num_drop)) [1; 2; 3] /\
  is_stack (fst (sin env_debug num_drop)) = true /\ 1 < llen [1; 2; 3] /\
  let st := @sdemo env_debug N num_drop 4 w_start (sops_in ++ [STruncate 1]) in
  drops (snd (@sv_drop_val N num_drop (fst st) (snd st))) = [1].
Proof. split; [apply sin_reached|]. by repeat split; vm_compute. Qed.

(** * C34 *)

(** If the inline capacity is at least one less than the growth step of the element type
    ([MIN_NON_ZERO_CAP]: 8, 4 or 1 by element size), pushing below the capacity stays inline and
    leaves the world (allocator, heap, destructor log) untouched. *)
Lemma p_C34_stays_inline_partial : forall (EN : Env) (T : Type) (EL : Elem T) (Cap : N) s (w : world T) xs x,
  0 < t_size -> sreached Cap s w xs -> is_stack s = true -> llen xs < Cap ->
  (if t_size =? 1 then 8 else if t_size <=? 1024 then 4 else 1) <= Cap + 1 ->
  exists s', sv_push Cap x (s, w) = (Ret tt, (s', w)) /\ is_stack s' = true /\
    sv_slice s' w = (Ret (xs ++ [x]), w).
Proof.
  intros EN T EL Cap s w xs x Hz Hr Hst Hl Hm. sreach Hr. destruct s as [[k|v] m]; [|done].
  assert (roomy Cap (llen xs)) as Hro by (unfold roomy, min_non_zero_cap; lia).
  pose proof Hr as [Hw Hr']. simpl in Hr'. pose proof (cap_bound Hz Cap HCap).
  destruct (sk_push_ok Hz Cap k xs x w Hr' Hl) as (k'&He&Hk); [done|].
  eexists. split; [|split].
  - unfold sv_push. erewrite (bind_Ret _ _ _ tt).
    2: { apply on_unwind_Ret. by apply (reserve_one_inline Hz Cap HCap w k m xs). }
    by apply redirect_stack.
  - done.
  - apply (slice_sok Cap Hz). by split.
Qed.
Lemma x_C34_stays_inline_ex :
  @sreached env_debug N num_drop 4 (fst (sin env_debug num_drop)) (snd (sin env_debug num_drop)) [1; 2; 3] /\
  is_stack (fst (sin env_debug num_drop)) = true /\
  (if @t_size N num_drop =? 1 then 8 else if @t_size N num_drop <=? 1024 then 4 else 1) <= 4 + 1.
Proof. split; [apply sin_reached|]. by split; vm_compute. Qed.

(** Exactly when a push onto an inline vector leaves it inline. *)
Lemma p_C34_inline_exact_partial : forall (EN : Env) (T : Type) (EL : Elem T) (Cap : N) s (w : world T) xs x s' w',
  0 < t_size -> sreached Cap s w xs -> is_stack s = true ->
  (llen xs + 9) * t_size <= isize_max + 1 - t_align ->
  sv_push Cap x (s, w) = (Ret tt, (s', w')) ->
  is_stack s' = true <->
  llen xs + N.max ((if t_size =? 1 then 8 else if t_size <=? 1024 then 4 else 1) - Cap) 1 <= Cap.
Proof.
  intros EN T EL Cap s w xs x s' w' Hz Hr Hst Hf He. sreach Hr. destruct s as [[k|v] m]; [|done].
  change (is_stack s' = true <-> roomy Cap (llen xs)). unfold sv_push in He.
  destruct (reserve_sok Hz Cap HCap w _ xs 1 Hr) as (r&s1&w1&He1&Hk&Hr1&_&Hs1&Hcase).
  { by rewrite <-N.add_assoc. }
  destruct Hcase as [(->&Hroom&Hw)|(->&->&_)].
  2: { erewrite bind_unwound_s in He by (by apply on_unwind_drop_s). unfold unwound in He. by case_match. }
  erewrite (bind_Ret _ _ _ tt) in He by (apply on_unwind_Ret; exact He1).
  assert (is_stack s' = is_stack s1) as ->.
  { destruct s1 as [[k1|v1] m1]; unfold redirect in He; rewrite bind_get_fst in He; simpl in He;
      unfold on_stack, on_heap in He; simpl in He.
    - destruct (sk_unchecked_push Cap x (k1, w1)) as [r [k2 w2]]. by injection He as _ <- _.
    - destruct (vec_push x (v1, w1)) as [r [v2 w2]]. by injection He as _ <- _. }
  split.
  - intros Hs. destruct (N.le_gt_cases (llen xs + N.max (min_non_zero_cap - Cap) 1) Cap) as [|Hno']; [done|exfalso].
    assert (~ roomy Cap (llen xs)) as Hno by (unfold roomy; lia).
    erewrite (reserve_one_heap Hz Cap HCap w k m xs s1 w1) in Hs; [done|done| |done|done].
    by rewrite <-N.add_assoc.
  - intros Hro. rewrite (reserve_one_inline Hz Cap HCap w k m xs Hr Hro) in He1. by injection He1 as <- <-.
Qed.
Lemma x_C34_inline_exact_ex :
  @sreached env_debug N num_drop 4 (fst (sin env_debug num_drop)) (snd (sin env_debug num_drop)) [1; 2; 3] /\
  fst (@sv_push env_debug N num_drop 4 9 (sin env_debug num_drop)) = Ret tt.
Proof. split; [apply sin_reached|by vm_compute]. Qed.

(** Inline capacity 2, one element: the second push goes to the heap; if the allocator refuses, it
    panics although there is room inline. *)
Lemma p_C34_stays_inline_refuted :
  let s := fst (@sdemo env_debug N num_drop 2 w_start [SPush 1]) in
  let w := snd (@sdemo env_debug N num_drop 2 w_start [SPush 1]) in
  @sreached env_debug N num_drop 2 s w [1] /\ is_stack s = true /\ llen [1] < 2 /\
  is_stack (fst (snd (@sv_push env_debug N num_drop 2 9 (s, w)))) = false /\
  fst (@sv_push (env_refusing 0) N num_drop 2 9
        (@sdemo (env_refusing 0) N num_drop 2 w_start [SPush 1])) = Panic PUnwrap.
Proof.
  split; [by apply sdemo_reached; [apply w_start_ok|..]; vm_compute|]. by repeat split; vm_compute.
Qed.

(** * C35 *)

(** [try_move_to_stack] on an inline vector, and on a heap vector that does not fit. *)
Lemma p_C35_move_to_stack_partial : forall (EN : Env) (T : Type) (EL : Elem T) (Cap : N) s (w : world T) xs,
  0 < t_size -> sreached Cap s w xs -> is_stack s = true \/ Cap < llen xs ->
  sv_try_move_to_stack Cap (s, w) = (Ret (is_stack s), (s, w)).
Proof.
  intros EN T EL Cap s w xs Hz Hr Hc. sreach Hr. unfold sv_try_move_to_stack. rewrite bind_get_fst.
  destruct s as [[k|v] m]; cbn [sv_store]; [done|]. destruct Hc as [?|Hc]; [done|].
  destruct Hr as [_ [Hl _]]. by rewrite Hl, (proj2 (N.leb_gt _ _)).
Qed.
Lemma x_C35_move_to_stack_ex :
  let st := @sdemo env_debug N num_drop 4 w_start (sops_out ++ [SPush 4; SPush 5]) in
  @sreached env_debug N num_drop 4 (fst st) (snd st) [1; 2; 3; 4; 5] /\ 4 < llen [1; 2; 3; 4; 5].
Proof. split; [by apply sdemo_reached; [apply w_start_ok|..]; vm_compute|by vm_compute]. Qed.

(** A heap vector that fits: its memory is released and then used again. *)
Lemma p_C35_move_to_stack_refuted : forall (EN : Env) (T : Type) (EL : Elem T) (Cap : N) s (w : world T) xs,
  0 < t_size -> sreached Cap s w xs -> is_stack s = false -> llen xs <= Cap ->
  exists u, fst (sv_try_move_to_stack Cap (s, w)) = UB u.
Proof.
  intros EN T EL Cap s w xs Hz Hr Hst Hl. sreach Hr. destruct s as [[k|v] m]; [done|].
  destruct Hr as [_ Hr]. simpl in Hr.
  destruct (move_to_stack_ub Cap Hz w v m xs Hr Hl) as (u&st&He&_). exists u. by rewrite He.
Qed.
Lemma x_C35_move_to_stack_refuted_ex :
  @sreached env_debug N num_drop 4 (fst (sout env_debug num_drop)) (snd (sout env_debug num_drop)) [1; 2; 3] /\
  is_stack (fst (sout env_debug num_drop)) = false /\
  fst (@sv_try_move_to_stack N num_drop 4 (sout env_debug num_drop)) = UB UseAfterFree.
Proof. split; [apply sout_reached|]. by split; vm_compute. Qed.

(** * C36 *)

(** [resize] works on the heap, up to the inline capacity, and when the reservation moves the
    elements to the heap: it ends with length [n] or in a panic of the clone or (only if the
    allocator may refuse) of the allocation, which leave the elements. *)
Lemma p_C36_resize_partial : forall (EN : Env) (T : Type) (EL : Elem T) (Cap : N) s (w : world T) xs n x,
  0 < t_size -> no_drop_panic -> sreached Cap s w xs ->
  (llen xs + n + 8) * t_size <= isize_max + 1 - t_align ->
  n <= Cap \/ is_stack s = false \/
    Cap < llen xs + N.max ((if t_size =? 1 then 8 else if t_size <=? 1024 then 4 else 1) - Cap) (n - Cap) ->
  exists r s' w' zs, sv_resize Cap n x (s, w) = (r, (s', w')) /\ sv_slice s' w' = (Ret zs, w') /\
    srest s' w' = srest s w /\
    ((r = Ret tt /\ n <= llen xs /\ zs = take (N.to_nat n) xs /\
        drops w' = drops w ++ (if is_stack s' then [] else drop (N.to_nat n) xs) ++ [x]) \/
     (r = Ret tt /\ llen xs < n /\ drops w' = drops w /\ exists ys, zs = xs ++ ys ++ [x] /\ llen zs = n /\
        Forall (fun y => t_clone x = Some y) ys) \/
     (r = Panic PUser /\ t_clone x = None /\ zs = xs /\ drops w' = drops w ++ [x]) \/
     (r = Panic PUnwrap /\ refuses /\ zs = xs /\ drops w' = drops w ++ [x])).
Proof.
  intros EN T EL Cap s w xs n x Hz Hnd Hr Hf Hc. sreach Hr.
  destruct (resize_sok Hz Cap HCap n x w s xs Hr Hnd Hf) as (r&s'&w'&He&Hcase).
  { destruct Hc as [?|[?|Hc]]; [by left|right; by left|]. right. right. unfold roomy_for, min_non_zero_cap. lia. }
  destruct Hcase as [(Hn&->&Hr'&Hk)|[(Hn&->&ys&Hys&Hr'&Hk)|[(Hn&->&Hcl&Hr'&Hk)|(->&Hr'&Hk&Hrf)]]];
    eexists _, s', w', _; (split; [exact He|]); (split; [by apply (slice_sok Cap Hz)|]);
    (split; [by destruct Hk as (?&_)|]); destruct Hk as (_&Hd&_).
  - by left.
  - rewrite app_nil_r in Hd. right. left. split; [done|]. split; [done|]. split; [done|]. exists ys. split; [done|]. split.
    + rewrite !app_length. simpl. destruct Hys as [[-> ->]|(y&_&->)]; [simpl; lia|].
      rewrite replicate_length. lia.
    + destruct Hys as [[-> _]|(y&Hy&->)]; [constructor|by apply Forall_replicate].
  - right. right. by left.
  - right. right. by right.
Qed.
Lemma x_C36_resize_ex :
  @sreached env_debug N num_drop 4 (fst (sin env_debug num_drop)) (snd (sin env_debug num_drop)) [1; 2; 3] /\
  (3 + 6 + 8) * @t_size N num_drop <= isize_max + 1 - 8 /\
  4 < 3 + N.max ((if @t_size N num_drop =? 1 then 8 else if @t_size N num_drop <=? 1024 then 4 else 1) - 4) (6 - 4) /\
  exists s' w', @sv_resize env_debug N num_drop 4 6 9 (sin env_debug num_drop) = (Ret tt, (s', w')) /\
    @sv_slice N num_drop s' w' = (Ret [1; 2; 3; 9; 9; 9], w').
Proof.
  split; [apply sin_reached|]. split; [by vm_compute|]. split; [by vm_compute|].
  eexists _, _. split; [vm_compute; reflexivity|]. vm_compute. reflexivity.
Qed.
Lemma p_C36_resize_with_partial : forall (EN : Env) (T : Type) (EL : Elem T) (Cap : N) s (w : world T) xs n g,
  0 < t_size -> no_drop_panic -> sreached Cap s w xs -> n * t_size <= isize_max + 1 - t_align ->
  n <= Cap \/ is_stack s = false ->
  exists r s' w' zs, sv_resize_with Cap n g (s, w) = (r, (s', w')) /\ sv_slice s' w' = (Ret zs, w') /\
    srest s' w' = srest s w /\
    ((r = Ret tt /\ n <= llen xs /\ zs = take (N.to_nat n) xs /\
        drops w' = drops w ++ (if is_stack s' then [] else drop (N.to_nat n) xs)) \/
     (r = Ret tt /\ llen xs < n /\ drops w' = drops w /\ exists ys, zs = xs ++ ys /\ llen zs = n /\
        forall k, (k < length ys)%nat -> g k = ys !! k) \/
     (r = Panic PUser /\ llen xs < n /\ drops w' = drops w /\ exists ys, zs = xs ++ ys /\ llen zs < n /\
        g (length ys) = None /\ forall k, (k < length ys)%nat -> g k = ys !! k) \/
     (r = Panic PUnwrap /\ refuses /\ zs = xs /\ drops w' = drops w)).
Proof.
  intros EN T EL Cap s w xs n g Hz Hnd Hr Hf Hc. sreach Hr.
  destruct (resize_with_sok Hz Cap HCap n g w s xs Hr Hnd Hf Hc) as (r&s'&w'&He&Hcase).
  assert (Hp : forall m j, snd (produce g j m) = true -> length (fst (produce g j m)) = m /\
    forall k, (k < m)%nat -> g (j + k)%nat = fst (produce g j m) !! k).
  { induction m as [|m IH]; intros j; simpl; [intros _; split; [done|lia]|].
    destruct (g j) as [y|] eqn:Ey; [|done]. specialize (IH (S j)). destruct (produce g (S j) m) as [l b].
    simpl in *. intros Hb. destruct (IH Hb) as [Hl Hg]. split; [by rewrite Hl|].
    intros [|k] Hk; simpl; [by rewrite Nat.add_0_r|]. rewrite <-Hg by lia. f_equal. lia. }
  assert (Hq : forall m j, snd (produce g j m) = false -> (length (fst (produce g j m)) < m)%nat /\
    g (j + length (fst (produce g j m)))%nat = None /\
    forall k, (k < length (fst (produce g j m)))%nat -> g (j + k)%nat = fst (produce g j m) !! k).
  { induction m as [|m IH]; intros j; simpl; [done|].
    destruct (g j) as [y|] eqn:Ey; [|intros _; simpl; rewrite Nat.add_0_r; split; [lia|]; split; [done|]; intros k Hk; lia].
    specialize (IH (S j)). destruct (produce g (S j) m) as [l b]. simpl in *. intros Hb.
    destruct (IH Hb) as (Hl&Hn&Hg). split; [lia|]. split; [by rewrite Nat.add_succ_r|].
    intros [|k] Hk; simpl; [by rewrite Nat.add_0_r|]. rewrite <-Hg by lia. f_equal. lia. }
  destruct Hcase as [(Hn&->&Hr'&Hk)|[(Hn&->&Hr'&Hk)|(->&Hr'&Hk&Hrf)]];
    eexists _, s', w', _; (split; [exact He|]); (split; [by apply (slice_sok Cap Hz)|]);
    (split; [by destruct Hk as (?&_)|]); destruct Hk as (_&Hd&_).
  - by left.
  - rewrite app_nil_r in Hd. destruct (snd (produce g 0 (N.to_nat (n - llen xs)))) eqn:E.
    + right. left. split; [done|]. split; [done|]. split; [done|]. destruct (Hp _ _ E) as [Hl Hg].
      eexists. split; [done|]. split; [rewrite app_length; lia|]. intros k Hk'. apply (Hg k). lia.
    + right. right. left. split; [done|]. split; [done|]. split; [done|]. destruct (Hq _ _ E) as (Hl&Hg0&Hg).
      eexists. split; [done|]. split; [rewrite app_length; lia|]. split; [exact Hg0|exact Hg].
  - rewrite app_nil_r in Hd. right. right. by right.
Qed.
Lemma x_C36_resize_with_ex :
  @sreached env_debug N num_drop 4 (fst (sout env_debug num_drop)) (snd (sout env_debug num_drop)) [1; 2; 3] /\
  6 * @t_size N num_drop <= isize_max + 1 - 8 /\ is_stack (fst (sout env_debug num_drop)) = false /\
  exists s' w', @sv_resize_with env_debug N num_drop 4 6 (fun k => Some (N.of_nat k)) (sout env_debug num_drop) = (Ret tt, (s', w')) /\
    @sv_slice N num_drop s' w' = (Ret [1; 2; 3; 0; 1; 2], w').
Proof.
  split; [apply sout_reached|]. split; [by vm_compute|]. split; [by vm_compute|].
  eexists _, _. split; [vm_compute; reflexivity|]. vm_compute. reflexivity.
Qed.

(** Inline vectors: [resize] asks for [n - N] more elements, which may fit inline although [n] does
    not; [resize_with] asks for none.  Both then panic, whatever the allocator does. *)
Lemma p_C36_resize_refuted : forall (EN : Env) (T : Type) (EL : Elem T) (Cap : N) s (w : world T) xs n,
  0 < t_size -> no_drop_panic -> sreached Cap s w xs -> is_stack s = true -> Cap < n -> n <= usize_max ->
  (forall x, llen xs + N.max ((if t_size =? 1 then 8 else if t_size <=? 1024 then 4 else 1) - Cap) (n - Cap) <= Cap ->
     exists p, fst (sv_resize Cap n x (s, w)) = Panic p) /\
  (forall g, exists p, fst (sv_resize_with Cap n g (s, w)) = Panic p).
Proof.
  intros EN T EL Cap s w xs n Hz Hnd Hr Hst Hn Hm. sreach Hr. split.
  - intros x Hro. destruct (resize_inline_fails Hz Cap HCap n x w s xs) as (p&st&He); try done.
    exists p. by rewrite He.
  - intros g. destruct (resize_with_inline_fails Hz Cap HCap n g w s xs) as (p&st&He); try done.
    exists p. by rewrite He.
Qed.
Lemma x_C36_resize_refuted_ex :
  let st := @sdemo env_debug N num_drop 10 w_start [] in
  @sreached env_debug N num_drop 10 (fst st) (snd st) [] /\ is_stack (fst st) = true /\
  0 + N.max ((if @t_size N num_drop =? 1 then 8 else if @t_size N num_drop <=? 1024 then 4 else 1) - 10) (12 - 10) <= 10 /\
  fst (@sv_resize env_debug N num_drop 10 12 5 st) = Panic PDebugAssert /\
  fst (@sv_resize env_release N num_drop 10 12 5 st) = Panic PAssert.
Proof.
  split; [by apply sdemo_reached; [apply w_start_ok|..]; vm_compute|]. split; [by vm_compute|].
  split; [by vm_compute|]. split; by vm_compute.
Qed.

(** * C37 *)

(** [From<[T; L]>] for arrays longer than the inline capacity (and for empty arrays). *)
Lemma p_C37_from_array_partial : forall (EN : Env) (T : Type) (EL : Elem T) (Cap : N) (w : world T) l,
  0 < t_size -> no_drop_panic -> wok w -> llen l * t_size <= isize_max + 1 - t_align ->
  Cap < llen l \/ l = [] ->
  exists r w', sv_from_array Cap l w = (r, w') /\
    ((exists s, r = Ret s /\ sv_slice s w' = (Ret l, w') /\ srest s w' = heap w /\ drops w' = drops w) \/
     (r = Panic PUnwrap /\ refuses /\ heap w' = heap w /\ drops w' = drops w ++ l)).
Proof.
  intros EN T EL Cap w l Hz Hnd Hw Hf [Hl| ->].
  - destruct (from_array_long Hz Cap w l Hw Hnd Hf Hl) as (r&w'&He&[(s&->&Hr&Hb)|(->&Hs&Hrf)]);
      eexists _, w'; (split; [exact He|]).
    + left. exists s. split; [done|]. split; [by apply (slice_sok Cap Hz)|]. destruct Hb as (?&Hd&_).
      split; [done|]. by rewrite Hd, app_nil_r.
    + right. destruct Hs as (?&?&_). done.
  - destruct (from_array_short Hz Cap w [] Hw) as (s&He&Hr&Hst); [simpl; lia|].
    eexists _, w. split; [exact He|]. left. exists s. split; [done|]. split; [by apply (slice_sok Cap Hz)|].
    split; [|done]. destruct s as [[k|v] m]; [done|done].
Qed.
Lemma x_C37_from_array_ex :
  wok w_start /\ llen [1; 2; 3] * @t_size N num_drop <= isize_max + 1 - 8 /\ 2 < llen [1; 2; 3].
Proof. split; [apply w_start_ok|]. by split; vm_compute. Qed.

(** Arrays that fit inline: the vector is empty, and the elements are never destroyed. *)
Lemma p_C37_from_array_refuted : forall (EN : Env) (T : Type) (EL : Elem T) (Cap : N) (w : world T) l,
  0 < t_size -> no_drop_panic -> wok w -> 1 <= llen l -> llen l <= Cap ->
  exists s w', sv_from_array Cap l w = (Ret s, w) /\ sv_slice s w = (Ret [], w) /\
    sv_drop_val s w = (Ret tt, w') /\ drops w' = drops w.
Proof.
  intros EN T EL Cap w l Hz Hnd Hw H1 Hl.
  destruct (from_array_short Hz Cap w l Hw Hl) as (s&He&Hr&_).
  destruct (drop_val_sok Hz Cap w s [] Hr Hnd) as (w'&Hd&(_&Hds&_)).
  exists s, w'. split; [done|]. split; [by apply (slice_sok Cap Hz)|]. split; [done|].
  by rewrite Hds, app_nil_r.
Qed.
Lemma x_C37_from_array_refuted_ex :
  wok w_start /\ 1 <= llen [1; 2; 3] /\ llen [1; 2; 3] <= 4.
Proof. split; [apply w_start_ok|]. by split; vm_compute. Qed.

(** * C38 *)

(** [split_off] and [split_off_into] before the end: head and tail, in separate memory. *)
Lemma p_C38_split_off_partial : forall (EN : Env) (T : Type) (EL : Elem T) (Cap Len : N) s (w : world T) xs at_,
  0 < t_size -> sreached Cap s w xs ->
  llen xs * t_size <= isize_max + 1 - t_align -> at_ < llen xs ->
  exists r s' w', sv_split_off_into Cap Len at_ (s, w) = (r, (s', w')) /\ drops w' = drops w /\
    ((exists o, r = Ret o /\ sv_slice s' w' = (Ret (take (N.to_nat at_) xs), w') /\
        sv_slice o w' = (Ret (drop (N.to_nat at_) xs), w') /\
        (no_drop_panic -> forall w2, sv_drop_val o w' = (Ret tt, w2) -> srest s' w2 = srest s w)) \/
     (r = Panic PUnwrap /\ refuses /\ sv_slice s' w' = (Ret xs, w'))).
Proof.
  intros EN T EL Cap Len s w xs at_ Hz Hr Hf Hat. sreach Hr.
  destruct (split_off_sok Hz Cap Len HCap w s xs at_ Hr Hat Hf) as (r&s'&w'&He&Hcase).
  exists r, s', w'. split; [done|].
  destruct Hcase as [(o&->&Hr'&Hro&Hap&Hd&Hh&Hsd)|(->&->&Hr'&Hk&Hrf)].
  - split; [done|]. left. exists o. split; [done|]. split; [by apply (slice_sok Cap Hz)|].
    split; [by apply (slice_sok Len Hz)|]. intros Hnd w2 Hw2.
    destruct (drop_val_sok Hz Len w' o _ Hro Hnd) as (w3&Hd3&(Hh3&_)). rewrite Hw2 in Hd3. injection Hd3 as ->.
    unfold srest in *. by rewrite Hh3, delete_ptr_comm.
  - destruct Hk as (_&Hd&_). rewrite app_nil_r in Hd. split; [done|]. right. split; [done|]. split; [done|].
    by apply (slice_sok Cap Hz).
Qed.
Lemma x_C38_split_off_ex :
  @sreached env_debug N num_drop 4 (fst (sin env_debug num_drop)) (snd (sin env_debug num_drop)) [1; 2; 3] /\
  1 < llen [1; 2; 3] /\
  exists o s' w', @sv_split_off_into env_debug N num_drop 4 1 1 (sin env_debug num_drop) = (Ret o, (s', w')) /\
    @sv_slice N num_drop o w' = (Ret [2; 3], w') /\ @sv_slice N num_drop s' w' = (Ret [1], w') /\
    is_stack o = false.
Proof.
  split; [apply sin_reached|]. split; [by vm_compute|]. eexists _, _, _.
  split; [vm_compute; reflexivity|]. split; [vm_compute; reflexivity|]. split; vm_compute; reflexivity.
Qed.

(** At the end: a panic instead of an empty tail. *)
Lemma p_C38_split_off_refuted : forall (EN : Env) (T : Type) (EL : Elem T) (Cap Len : N) s (w : world T) xs,
  0 < t_size -> sreached Cap s w xs ->
  sv_split_off_into Cap Len (llen xs) (s, w) = (Panic PUnwrap, (s, w)).
Proof.
  intros EN T EL Cap Len s w xs Hz Hr. sreach Hr. by apply (split_off_bad Hz Cap Len HCap w s xs).
Qed.
Lemma x_C38_split_off_refuted_ex :
  @sreached env_debug N num_drop 4 (fst (sin env_debug num_drop)) (snd (sin env_debug num_drop)) [1; 2; 3].
Proof. apply sin_reached. Qed.

(** * C39 *)

(** [insert] on the heap, or before the end, or with debug assertions past the end, or whenever the
    reservation moves the elements to the heap. *)
Lemma p_C39_insert_partial : forall (EN : Env) (T : Type) (EL : Elem T) (Cap : N) s (w : world T) xs i x,
  0 < t_size -> sreached Cap s w xs ->
  (llen xs + 9) * t_size <= isize_max + 1 - t_align ->
  is_stack s = false \/ i < llen xs \/ (llen xs < i /\ e_checks = true) \/ (i = llen xs /\ e_strict = false) \/
    Cap < llen xs + N.max ((if t_size =? 1 then 8 else if t_size <=? 1024 then 4 else 1) - Cap) 1 ->
  let failed p := if t_needs_drop && t_drop_panics x then Abort else Panic p in
  exists r s' w' zs ds, sv_insert Cap i x (s, w) = (r, (s', w')) /\ sv_slice s' w' = (Ret zs, w') /\
    srest s' w' = srest s w /\ drops w' = drops w ++ ds /\
    ((r = Ret tt /\ i <= llen xs /\ zs = take (N.to_nat i) xs ++ x :: drop (N.to_nat i) xs /\ ds = []) \/
     ((r = failed PAssert \/ r = failed PDebugAssert) /\ llen xs < i /\ zs = xs /\ ds = [x]) \/
     (r = failed PUnwrap /\ refuses /\ zs = xs /\ ds = [x])).
Proof.
  intros EN T EL Cap s w xs i x Hz Hr Hf Hc failed. sreach Hr.
  destruct (insert_sok Hz Cap HCap w s xs i x Hr Hf) as (r&s'&w'&He&Hcase).
  { unfold insert_undef, roomy, min_non_zero_cap. intros (Hst&Hro&Hu).
    destruct Hc as [?|[?|[[? Hck]|[[? Hsk]|?]]]]; [congruence|lia| |lia|].
    - destruct Hu as [[_ [?|[_ ?]]]|(_&_&?)]; [lia|congruence|congruence].
    - lia. }
  destruct Hcase as [(Hi&->&Hr'&Hk&_)|[(->&Hr'&Hk&_&Hrf)|(Hi&Hp&Hr'&Hk&_)]];
    eexists _, s', w', _, _; (split; [exact He|]); (split; [by apply (slice_sok Cap Hz)|]);
    destruct Hk as (?&Hd&_); (split; [done|]); (split; [exact Hd|]).
  - by left.
  - right. by right.
  - right. left. done.
Qed.
Lemma x_C39_insert_ex :
  @sreached env_debug N num_drop 4 (fst (sin env_debug num_drop)) (snd (sin env_debug num_drop)) [1; 2; 3] /\
  (3 + 9) * @t_size N num_drop <= isize_max + 1 - 8 /\ 1 < llen [1; 2; 3].
Proof. split; [apply sin_reached|]. by split; vm_compute. Qed.

(** An inline vector that stays inline: [insert] past the end in a release build moves memory and
    writes outside the vector, and [insert] at the end violates a library precondition. *)
Lemma p_C39_insert_refuted : forall (EN : Env) (T : Type) (EL : Elem T) (Cap : N) s (w : world T) xs i x,
  0 < t_size -> sreached Cap s w xs -> is_stack s = true ->
  llen xs + N.max ((if t_size =? 1 then 8 else if t_size <=? 1024 then 4 else 1) - Cap) 1 <= Cap ->
  (e_checks = false /\ llen xs < i) \/ (e_strict = true /\ i = llen xs) ->
  exists u, fst (sv_insert Cap i x (s, w)) = UB u.
Proof.
  intros EN T EL Cap s w xs i x Hz Hr Hst Hro Hc. sreach Hr.
  destruct (insert_undef_ub Hz Cap HCap w s xs i x Hr) as [st He].
  { split; [done|]. split; [done|]. destruct (@e_strict e_profile) eqn:Es.
    - left. split; [done|]. destruct Hc as [[? ?]|[? ?]]; [by right|by left].
    - right. destruct Hc as [[? ?]|[? ?]]; done. }
  eexists. by rewrite He.
Qed.
Lemma x_C39_insert_refuted_ex :
  let st := @sdemo env_release N num_drop 4 w_start sops_in in
  @sreached env_release N num_drop 4 (fst st) (snd st) [1; 2; 3] /\ is_stack (fst st) = true /\
  fst (@sv_insert env_release N num_drop 4 5 9 st) = UB OutOfBounds.
Proof.
  split; [by apply sdemo_reached; [apply w_start_ok|..]; vm_compute|]. by split; vm_compute.
Qed.

(** [remove] with room to spare inline, or on the heap. *)
Lemma p_C39_remove_partial : forall (EN : Env) (T : Type) (EL : Elem T) (Cap : N) s (w : world T) xs i,
  0 < t_size -> sreached Cap s w xs -> is_stack s = false \/ llen xs < Cap ->
  exists r s' w' zs, sv_remove Cap i (s, w) = (r, (s', w')) /\ sv_slice s' w' = (Ret zs, w') /\
    srest s' w' = srest s w /\ drops w' = drops w /\
    match xs !! N.to_nat i with
    | Some x => r = Ret x /\ zs = take (N.to_nat i) xs ++ drop (S (N.to_nat i)) xs
    | None => r = Panic PAssert /\ zs = xs
    end.
Proof.
  intros EN T EL Cap s w xs i Hz Hr Hc. sreach Hr.
  assert (forall r s' w' zs, sv_remove Cap i (s, w) = (r, (s', w')) -> srep Cap w' s' zs -> skeeps s w s' w' [] ->
    match xs !! N.to_nat i with
    | Some x => r = Ret x /\ zs = take (N.to_nat i) xs ++ drop (S (N.to_nat i)) xs
    | None => r = Panic PAssert /\ zs = xs
    end -> exists r s' w' zs, sv_remove Cap i (s, w) = (r, (s', w')) /\ sv_slice s' w' = (Ret zs, w') /\
      srest s' w' = srest s w /\ drops w' = drops w /\
      match xs !! N.to_nat i with
      | Some x => r = Ret x /\ zs = take (N.to_nat i) xs ++ drop (S (N.to_nat i)) xs
      | None => r = Panic PAssert /\ zs = xs
      end) as Hgo.
  { intros r s' w' zs He Hr' (?&Hd&_) Hm. exists r, s', w', zs. rewrite app_nil_r in Hd.
    split; [done|]. split; [by apply (slice_sok Cap Hz)|]. done. }
  destruct (xs !! N.to_nat i) as [x|] eqn:Hx.
  - pose proof (lookup_lt_Some _ _ _ Hx) as Hi. destruct s as [[k|v] m]; pose proof Hr as [Hw Hr']; simpl in Hr'.
    + destruct Hc as [?|Hc]; [done|]. destruct (sk_remove_ok Hz Cap k xs i x w Hr' Hx Hc) as (k'&He&Hk).
      eapply Hgo; [unfold sv_remove; apply redirect_stack; exact He|split; [exact Hw|exact Hk]|apply skeeps_stack0|].
      by rewrite delete_take_drop.
    + destruct (remove_ok Hz w v xs i Hr') as [[Hi' _]|(x'&v'&w'&_&Hx'&He&Hr''&Hk&_)]; [lia|].
      assert (x' = x) as -> by congruence.
      eapply Hgo; [unfold sv_remove; by apply redirect_heap|by apply srep_heap|by apply skeeps_heap|].
      split; [done|]. by rewrite ?delete_take_drop.
  - apply lookup_ge_None in Hx. destruct s as [[k|v] m]; pose proof Hr as [Hw Hr']; simpl in Hr'.
    + eapply Hgo; [unfold sv_remove; apply redirect_stack; eapply (sk_remove_bad Hz Cap); [exact Hr'|lia]|split; [exact Hw|exact Hr']|apply skeeps_stack0|done].
    + destruct (remove_ok Hz w v xs i Hr') as [[_ He]|(x'&v'&w'&Hi'&_)]; [|lia].
      eapply Hgo; [unfold sv_remove; by apply redirect_heap|exact Hr|by apply skeeps_refl|done].
Qed.
Lemma x_C39_remove_ex :
  @sreached env_debug N num_drop 4 (fst (sin env_debug num_drop)) (snd (sin env_debug num_drop)) [1; 2; 3] /\
  llen [1; 2; 3] < 4.
Proof. split; [apply sin_reached|by vm_compute]. Qed.

(** [remove] from a full inline vector reads past its storage, in every build. *)
Lemma p_C39_remove_refuted : forall (EN : Env) (T : Type) (EL : Elem T) (Cap : N) s (w : world T) xs i,
  0 < t_size -> sreached Cap s w xs -> is_stack s = true -> llen xs = Cap -> i < llen xs ->
  fst (sv_remove Cap i (s, w)) = UB OutOfBounds.
Proof.
  intros EN T EL Cap s w xs i Hz Hr Hst Hl Hi.
  by apply (p_C32_small_vec_is_a_list_refuted EN T EL Cap s w xs Hz Hr Hst).
Qed.
Lemma x_C39_remove_refuted_ex :
  let full := @sdemo env_release N num_drop 4 w_start (sops_in ++ [SPush 4]) in
  @sreached env_release N num_drop 4 (fst full) (snd full) [1; 2; 3; 4] /\ is_stack (fst full) = true.
Proof. split; [by apply sdemo_reached; [apply w_start_ok|..]; vm_compute|by vm_compute]. Qed.

(** * C40 *)

(** [From<&[T]>]: a vector of the clones of the elements, or a panic that leaves nothing behind. *)
Lemma p_C40_from_slice : forall (EN : Env) (T : Type) (EL : Elem T) (Cap : N) (w : world T) l,
  0 < t_size -> no_drop_panic -> wok w -> Cap * t_size <= isize_max + 1 - t_align ->
  (llen l + 8) * t_size <= isize_max + 1 - t_align ->
  exists r w', sv_from_slice Cap l w = (r, w') /\
    ((exists s ys, r = Ret s /\ Forall2 (fun x y => t_clone x = Some y) l ys /\
        sv_slice s w' = (Ret ys, w') /\ srest s w' = heap w /\ drops w' = drops w) \/
     (exists p, r = Panic p /\ heap w' = heap w /\
        (p = PUser /\ Exists (fun x => t_clone x = None) l \/ p = PUnwrap /\ refuses))).
Proof.
  intros EN T EL Cap w l Hz Hnd Hw HC Hf.
  destruct (from_slice_sok Hz Cap HC l w Hw Hf Hnd) as (r&w'&He&Hcase). exists r, w'. split; [done|].
  destruct Hcase as [(s&ys&->&Hr&(Hh&Hd&_)&Hm)|[(ds&l1&x&l2&->&->&_&Hx&(Hh&_))|(ds&->&Hrf&(Hh&_))]].
  - left. exists s, ys. split; [done|]. split; [by apply mapM_Some_1|].
    split; [by apply (slice_sok Cap Hz)|]. split; [done|]. by rewrite Hd, app_nil_r.
  - right. exists PUser. split; [done|]. split; [done|]. left. split; [done|].
    apply Exists_app. right. by constructor.
  - right. exists PUnwrap. split; [done|]. split; [done|]. by right.
Qed.
Lemma x_C40_from_slice_ex :
  wok w_start /\ (llen [1; 2; 3] + 8) * @t_size N num_drop <= isize_max + 1 - 8 /\
  exists s w', @sv_from_slice env_debug N num_drop 2 [1; 2; 3] w_start = (Ret s, w') /\
    @sv_slice N num_drop s w' = (Ret [1; 2; 3], w').
Proof.
  split; [apply w_start_ok|]. split; [by vm_compute|]. eexists _, _.
  split; vm_compute; reflexivity.
Qed.
(** [Clone]: a second vector of the clones; the first is unchanged and the two share no memory. *)
Lemma p_C40_clone : forall (EN : Env) (T : Type) (EL : Elem T) (Cap : N) s (w : world T) xs,
  0 < t_size -> no_drop_panic -> sreached Cap s w xs ->
  (llen xs + 8) * t_size <= isize_max + 1 - t_align ->
  exists r w', sv_clone Cap s w = (r, w') /\
    ((exists o ys, r = Ret o /\ Forall2 (fun x y => t_clone x = Some y) xs ys /\
        sv_slice o w' = (Ret ys, w') /\ sv_slice s w' = (Ret xs, w') /\ srest o w' = heap w /\
        drops w' = drops w) \/
     (exists p, r = Panic p /\ heap w' = heap w /\
        (p = PUser /\ Exists (fun x => t_clone x = None) xs \/ p = PUnwrap /\ refuses))).
Proof.
  intros EN T EL Cap s w xs Hz Hnd Hr Hf. sreach Hr. unfold sv_clone.
  rewrite (as_slice_sok Cap Hz _ _ _ Hr).
  destruct (from_slice_sok Hz Cap HCap xs w (proj1 Hr) Hf Hnd) as (r&w'&He&Hcase). exists r, w'. split; [done|].
  destruct Hcase as [(o&ys&->&Hro&Hb&Hm)|[(ds&l1&x&l2&->&->&_&Hx&(Hh&_))|(ds&->&Hrf&(Hh&_))]].
  - left. exists o, ys. split; [done|]. split; [by apply mapM_Some_1|].
    split; [by apply (slice_sok Cap Hz)|].
    destruct (sborn_other Hz Cap Cap _ _ _ _ _ _ _ Hr Hb Hro) as [Hr1 Hap].
    split; [by apply (slice_sok Cap Hz)|]. destruct Hb as (?&Hd&_). split; [done|]. by rewrite Hd, app_nil_r.
  - right. exists PUser. split; [done|]. split; [done|]. left. split; [done|].
    apply Exists_app. right. by constructor.
  - right. exists PUnwrap. split; [done|]. split; [done|]. by right.
Qed.
Lemma x_C40_clone_ex :
  @sreached env_debug N num_drop 4 (fst (sout env_debug num_drop)) (snd (sout env_debug num_drop)) [1; 2; 3] /\
  (3 + 8) * @t_size N num_drop <= isize_max + 1 - 8.
Proof. split; [apply sout_reached|by vm_compute]. Qed.
(** [FromIterator], of an iterator that may panic and whose length hint [h] may be wrong. *)
Lemma p_C40_from_iter : forall (EN : Env) (T : Type) (EL : Elem T) (Cap : N) (w : world T) it h,
  0 < t_size -> wok w -> Cap * t_size <= isize_max + 1 - t_align ->
  (N.max (llen it) h + 8) * t_size <= isize_max + 1 - t_align ->
  exists r w' ys, sv_from_iter Cap it h w = (r, w') /\
    ((exists s, r = Ret s /\ it = Some <$> ys /\ sv_slice s w' = (Ret ys, w') /\
        srest s w' = heap w /\ drops w' = drops w) \/
     (exists p ds, r = settle (fun x => t_needs_drop && t_drop_panics x) (Panic p) ds /\
        (r = Panic p -> heap w' = heap w /\ drops w' = drops w ++ ds) /\
        (p = PUser /\ ds = ys /\ (exists it', it = (Some <$> ys) ++ None :: it') \/
         p = PUnwrap /\ refuses /\ (exists zs it', ds ≡ₚ zs /\ it = (Some <$> zs) ++ it')))).
Proof.
  intros EN T EL Cap w it h Hz Hw HC Hf.
  change (fun x : T => t_needs_drop && t_drop_panics x) with (@drop_panics T EL).
  assert (Hstill : forall p ds w', (culprits drop_panics ds = [] -> still w w' ds) ->
    settle drop_panics (Panic p) ds = (Panic p : res (svec T)) -> heap w' = heap w /\ drops w' = drops w ++ ds).
  { intros p ds w' Hs Hp. rewrite settle_panic in Hp. destruct (culprits drop_panics ds); [|done].
    destruct (Hs eq_refl) as (?&?&_). done. }
  destruct (from_iter_gen Hz Cap HC it h w Hw Hf) as (r&w'&ys&ds&He&Hcase). exists r, w', ys. split; [done|].
  destruct Hcase as [(s&->&Hr&(Hh&Hd&_)&Hm&_)|[(->&Hit&->&Hst)|[(->&->&->&Hrf&(Hh&Hd&_))|(y&it'&->&->&->&Hrf&Hst)]]].
  - left. exists s. split; [done|]. split; [done|]. split; [by apply (slice_sok Cap Hz)|]. split; [done|].
    by rewrite Hd, app_nil_r.
  - right. exists PUser, ys. split; [done|]. split; [by apply Hstill|]. by left.
  - right. exists PUnwrap, []. rewrite settle_nil. split; [done|]. split; [done|]. right. split; [done|].
    split; [done|]. by exists [], it.
  - right. exists PUnwrap, (y :: ys). split; [done|]. split; [by apply Hstill|]. right. split; [done|].
    split; [done|]. exists (ys ++ [y]), it'. split; [by rewrite Permutation_cons_append|].
    by rewrite fmap_app, <-app_assoc.
Qed.
Lemma x_C40_from_iter_ex :
  wok w_start /\ (N.max (llen [Some 1; Some 2; Some 3]) 0 + 8) * @t_size N num_drop <= isize_max + 1 - 8 /\
  exists s w', @sv_from_iter env_debug N num_drop 2 [Some 1; Some 2; Some 3] 0 w_start = (Ret s, w') /\
    @sv_slice N num_drop s w' = (Ret [1; 2; 3], w').
Proof.
  split; [apply w_start_ok|]. split; [by vm_compute|]. eexists _, _. split; vm_compute; reflexivity.
Qed.
(** [Extend]: what the iterator produced before it ended, panicked or the allocator refused is
    appended. *)
Lemma p_C40_extend : forall (EN : Env) (T : Type) (EL : Elem T) (Cap : N) s (w : world T) xs it h,
  0 < t_size -> sreached Cap s w xs ->
  (llen xs + N.max (llen it) h + 8) * t_size <= isize_max + 1 - t_align ->
  exists r s' w' ys ds, sv_extend Cap it h (s, w) = (r, (s', w')) /\
    sv_slice s' w' = (Ret (xs ++ ys), w') /\ srest s' w' = srest s w /\ drops w' = drops w ++ ds /\
    ((r = Ret tt /\ it = Some <$> ys /\ ds = []) \/
     (r = Panic PUser /\ (exists it', it = (Some <$> ys) ++ None :: it') /\ ds = []) \/
     (r = settle (fun x => t_needs_drop && t_drop_panics x) (Panic PUnwrap) ds /\ refuses /\
      exists it', it = (Some <$> ys) ++ (Some <$> ds) ++ it')).
Proof.
  intros EN T EL Cap s w xs it h Hz Hr Hf. sreach Hr.
  destruct (extend_sok Hz Cap HCap it h w s xs Hr Hf) as (r&s'&w'&ys&ds&He&Hr'&(Hk&Hd&_)&_&Hcase).
  exists r, s', w', ys, ds. split; [done|]. split; [by apply (slice_sok Cap Hz)|]. split; [done|]. split; [done|].
  destruct Hcase as [?|[?|[(->&->&->&Hrf)|(y&it'&->&->&->&Hrf)]]]; [by left|right; by left| |].
  - right. right. split; [done|]. split; [done|]. by exists it.
  - right. right. rewrite settle_unwound. split; [done|]. split; [done|]. by exists it'.
Qed.
Lemma x_C40_extend_ex :
  @sreached env_debug N num_drop 4 (fst (sin env_debug num_drop)) (snd (sin env_debug num_drop)) [1; 2; 3] /\
  exists s' w', @sv_extend env_debug N num_drop 4 [Some 7; Some 8; None] 1 (sin env_debug num_drop) = (Panic PUser, (s', w')) /\
    @sv_slice N num_drop s' w' = (Ret [1; 2; 3; 7; 8], w').
Proof. split; [apply sin_reached|]. eexists _, _. split; vm_compute; reflexivity. Qed.
(** [From<Vec<T>>] keeps elements, memory and marker. *)
Lemma p_C40_from_vec : forall (EN : Env) (T : Type) (EL : Elem T) (Cap : N) v (w : world T) xs,
  0 < t_size -> reached v w xs ->
  sv_slice (sv_from_vec v) w = (Ret xs, w) /\ sv_capacity Cap (sv_from_vec v) = vcap v /\
  sv_marker (T:=T) (sv_from_vec v) = vmarker v /\
  sv_drop_val (sv_from_vec v) w = vec_drop_val v w.
Proof.
  intros EN T EL Cap v w xs Hz Hr. pose proof (reached_rep Hz _ _ _ Hr) as Hrep.
  pose proof (from_vec_sok Cap w v xs Hrep) as Hs. split; [by apply (slice_sok Cap Hz)|]. split; [done|]. split; [done|].
  unfold sv_drop_val, vec_drop_val in *. unfold sv_drop. destruct (vec_drop (v, w)) as [r [v' w2]] eqn:E.
  unfold sv_from_vec. erewrite redirect_heap by exact E. done.
Qed.
Lemma x_C40_from_vec_ex :
  @reached env_debug N num_drop (v123 env_debug num_drop) (w123 env_debug num_drop) [1; 2; 3].
Proof. apply reached123_drop. Qed.
(** [From<Box<[T]>>]: the slice that [Vec::into_boxed_slice] made is adopted as it is. *)
Lemma p_C40_from_box : forall (EN : Env) (T : Type) (EL : Elem T) (Cap : N) v (w : world T) xs b w',
  0 < t_size -> no_drop_panic -> reached v w xs -> xs <> [] ->
  vec_into_boxed_slice v w = (Ret b, w') ->
  sv_slice (sv_from_box b) w' = (Ret xs, w') /\ sv_capacity Cap (sv_from_box (T:=T) b) = llen xs /\
  exists w2, sv_drop_val (sv_from_box b) w' = (Ret tt, w2) /\ drops w2 = drops w ++ xs /\
    heap w2 = delete_ptr (vdata v) (heap w).
Proof.
  intros EN T EL Cap v w xs b w' Hz Hnd Hre Hne He. pose proof (reached_rep Hz _ _ _ Hre) as Hr.
  destruct (into_boxed_slice_ok Hz w v xs Hr Hne Hnd) as (r&w1&He'&Hcase).
  rewrite He in He'. injection He' as <- <-.
  destruct Hcase as [(b'&[= <-]&Hb&Hh&Hd&_)|(?&_)]; [|done]. rewrite app_nil_r in Hd.
  pose proof (box_into_vec_ok w' b xs Hb) as Hv.
  pose proof (from_vec_sok Cap w' (vec_from_box b) xs Hv) as Hs.
  split; [by apply (slice_sok Cap Hz)|]. split; [|].
  { destruct Hb as [Hl _]. unfold sv_capacity, sv_from_box, sv_from_vec, vec_from_box, vcap. simpl.
    destruct (N.eqb_spec t_size 0); [clear -Hz e; lia|done]. }
  destruct (vec_drop_val_gone Hz w' (vec_from_box b) xs Hv Hnd) as (w2&Hdv&Hh2&Hd2&_). exists w2. split.
  { unfold sv_drop_val, vec_drop_val in *. unfold sv_drop, sv_from_box.
    destruct (vec_drop (vec_from_box b, w')) as [r [v' w3]] eqn:E.
    unfold sv_from_vec. erewrite redirect_heap by exact E. done. }
  split; [by rewrite Hd2, Hd|]. rewrite Hh2. exact Hh.
Qed.
Lemma x_C40_from_box_ex :
  @reached env_debug N num_drop (v123 env_debug num_drop) (w123 env_debug num_drop) [1; 2; 3] /\
  exists b w', @vec_into_boxed_slice env_debug N num_drop (v123 env_debug num_drop) (w123 env_debug num_drop)
    = (Ret b, w') /\ sp_len b = 3.
Proof. split; [apply reached123_drop|]. eexists _, _. split; vm_compute; reflexivity. Qed.
(** [into_vec], from inline or heap. *)
Lemma p_C40_into_vec : forall (EN : Env) (T : Type) (EL : Elem T) (Cap : N) s (w : world T) xs,
  0 < t_size -> no_drop_panic -> sreached Cap s w xs ->
  N.max (llen xs) 8 * t_size <= isize_max + 1 - t_align ->
  exists r w', sv_into_vec s w = (r, w') /\
    ((exists v, r = Ret v /\ vec_as_slice v w' = (Ret xs, w') /\ drops w' = drops w /\
        exists w2, vec_drop_val v w' = (Ret tt, w2) /\ heap w2 = srest s w /\ drops w2 = drops w ++ xs) \/
     (r = Panic PUnwrap /\ refuses /\ heap w' = srest s w /\ drops w' = drops w ++ xs)).
Proof.
  intros EN T EL Cap s w xs Hz Hnd Hr Hf. sreach Hr.
  destruct (into_vec_sok Hz Cap w s xs Hr Hf Hnd) as (r&w'&He&Hcase). exists r, w'. split; [done|].
  destruct Hcase as [(v&->&Hv&Hh&Hd)|(->&(Hh&Hd&_)&Hrf)].
  - left. exists v. split; [done|]. split; [by apply (as_slice_ok Hz)|]. split; [done|].
    destruct (vec_drop_val_gone Hz w' v xs Hv Hnd) as (w2&Hw2&Hh2&Hd2&_). exists w2. split; [done|].
    split; [by rewrite Hh2|]. by rewrite Hd2, Hd.
  - right. done.
Qed.
Lemma x_C40_into_vec_ex :
  @sreached env_debug N num_drop 4 (fst (sin env_debug num_drop)) (snd (sin env_debug num_drop)) [1; 2; 3] /\
  exists v w', @sv_into_vec env_debug N num_drop (fst (sin env_debug num_drop)) (snd (sin env_debug num_drop)) = (Ret v, w') /\
    @vec_as_slice N num_drop v w' = (Ret [1; 2; 3], w').
Proof. split; [apply sin_reached|]. eexists _, _. split; vm_compute; reflexivity. Qed.
(** [into_boxed_slice] of a vector with elements. *)
Lemma p_C40_into_boxed_slice_partial : forall (EN : Env) (T : Type) (EL : Elem T) (Cap : N) s (w : world T) xs,
  0 < t_size -> no_drop_panic -> sreached Cap s w xs -> xs <> [] ->
  N.max (llen xs) 8 * t_size <= isize_max + 1 - t_align ->
  exists r w', sv_into_boxed_slice s w = (r, w') /\
    ((exists b, r = Ret b /\ vec_as_slice (vec_from_box b) w' = (Ret xs, w') /\ drops w' = drops w /\
        exists w2, box_drop b w' = (Ret tt, w2) /\ heap w2 = srest s w /\ drops w2 = drops w ++ xs) \/
     (r = Panic PUnwrap /\ refuses /\ heap w' = srest s w /\ drops w' = drops w ++ xs)).
Proof.
  intros EN T EL Cap s w xs Hz Hnd Hr Hne Hf. sreach Hr. unfold sv_into_boxed_slice.
  destruct (into_vec_sok Hz Cap w s xs Hr Hf Hnd) as (r&w1&He&Hcase).
  destruct Hcase as [(v&->&Hv&Hh&Hd)|(->&(Hh&Hd&_)&Hrf)].
  2: { eexists _, w1. split; [by erewrite bind_Panic by exact He|]. by right. }
  destruct (into_boxed_slice_ok Hz w1 v xs Hv Hne Hnd) as (r&w'&He'&Hcase).
  exists r, w'. split; [by erewrite bind_Ret by exact He|].
  destruct Hcase as [(b&->&Hb&(Hk1&Hk2&_))|(->&(Hg1&Hg2&_)&Hrf)].
  - left. exists b. split; [done|]. rewrite app_nil_r in Hk2.
    assert (drops_glue false xs = (xs, Ret tt)) as Hg.
    { clear -Hnd. induction xs as [|x xs IH]; simpl; [done|]. by rewrite Hnd, andb_false_r, IH. }
    destruct (box_drop_slice_ok Hz w' b xs Hb) as (w2&Hbd&Hh2&Hd2&_); [by rewrite Hg|].
    rewrite Hg in Hd2. split; [by apply (as_slice_ok Hz), box_into_vec_ok|]. split; [by rewrite Hk2|].
    exists w2. split; [done|]. split; [by rewrite Hh2, <-Hh|]. rewrite Hd2, Hk2, Hd. done.
  - right. split; [done|]. split; [done|]. split; [by rewrite Hg1|]. by rewrite Hg2, Hd.
Qed.
Lemma x_C40_into_boxed_slice_ex :
  @sreached env_debug N num_drop 4 (fst (sin env_debug num_drop)) (snd (sin env_debug num_drop)) [1; 2; 3] /\
  exists b w', @sv_into_boxed_slice env_debug N num_drop (fst (sin env_debug num_drop)) (snd (sin env_debug num_drop)) = (Ret b, w') /\
    sp_len b = 3.
Proof. split; [apply sin_reached|]. eexists _, _. split; vm_compute; reflexivity. Qed.
(** An empty inline vector: its heap memory is shrunk to zero bytes. *)
Lemma p_C40_into_boxed_slice_refuted : forall (EN : Env) (T : Type) (EL : Elem T) (Cap : N) s (w : world T),
  0 < t_size -> sreached Cap s w [] -> is_stack s = true -> ~ refuses ->
  8 * t_size <= isize_max + 1 - t_align ->
  fst (sv_into_boxed_slice s w) = UB ZeroSizeAlloc.
Proof.
  intros EN T EL Cap s w Hz Hr Hst Hno Hf. sreach Hr. destruct s as [[k|v] m]; [|done].
  destruct (move_ok Hz Cap w k m [] 0 Hr) as (r&s'&w'&He&Hk&Hr'&Hcase); [done|].
  destruct Hcase as [(->&v&Hv&Hc)|(_&_&?)]; [|done].
  assert (sv_move_to_heap (SVec (Stack k) m, w) = (Ret tt, (s', w'))) as He'
    by (unfold sv_move_to_heap; by erewrite bind_Ret by exact He).
  unfold sv_into_boxed_slice, sv_into_vec. rewrite bind_assoc.
  erewrite bind_Ret by (eapply with_local_Ret_s; exact He'). cbn [snd]. rewrite Hv, bind_ret.
  destruct s' as [[k'|v'] m']; [done|]. simpl in Hv. injection Hv as ->. destruct Hr' as [_ Hrep]. simpl in Hrep.
  pose proof (min_cap_pos (T := T)).
  pose proof (shrink_to_zero Hz w' v Hrep) as Hu. specialize (Hu ltac:(lia)).
  unfold vec_into_boxed_slice.
  rewrite <-(shrink_to_fit_eq w' v [] Hrep) in Hu.
  destruct (vec_shrink_to_fit (v, w')) as [r [v2 w2]] eqn:E. simpl in Hu. subst r.
  unfold with_local, on_unwind, bind. rewrite E. done.
Qed.
Lemma x_C40_into_boxed_slice_refuted_ex :
  let st := @sdemo env_debug N num_drop 4 w_start [SPush 1; SPop] in
  @sreached env_debug N num_drop 4 (fst st) (snd st) [] /\ is_stack (fst st) = true /\
  fst (@sv_into_boxed_slice env_debug N num_drop (fst st) (snd st)) = UB ZeroSizeAlloc.
Proof.
  split; [by apply sdemo_reached; [apply w_start_ok|..]; vm_compute|]. by split; vm_compute.
Qed.

(** * C71 *)

(** [retain], [dedup_by] and [dedup_by_key] with any closures, panicking ones included, do the same
    to a [SmallVec], inline or not, as to a [Vec] with the same elements: same result, same elements
    left, same elements destroyed in the same order. *)
Lemma p_C71_retain : forall (EN : Env) (T : Type) (EL : Elem T) (Cap : N) s (w : world T) v wv xs
    (St : Type) (f : St -> T -> St * option bool) st,
  0 < t_size -> sreached Cap s w xs -> reached v wv xs ->
  exists o s' w' v' wv' zs ds,
    sv_retain Cap f st (s, w) = (o, (s', w')) /\ retain f st (v, wv) = (o, (v', wv')) /\
    sv_slice s' w' = (Ret zs, w') /\ vec_as_slice v' wv' = (Ret zs, wv') /\
    drops w' = drops w ++ ds /\ drops wv' = drops wv ++ ds /\ srest s' w' = srest s w.
Proof.
  intros EN T EL Cap s w v wv xs St f st Hz Hr Hv. sreach Hr. pose proof (reached_rep Hz _ _ _ Hv) as Hrep.
  destruct (retain_sok Hz Cap HCap f st w s xs Hr) as (s'&w'&o&zs&ds&He&Ha&Hr'&(Hh&Hd&_)).
  destruct (vec_retain_ok Hz f st wv v xs Hrep) as (v'&wv'&o'&zs'&ds'&He'&Ha'&Hrep'&(_&Hd'&_)).
  rewrite Ha in Ha'. injection Ha' as <- <- <-.
  exists o, s', w', v', wv', zs, ds. split; [done|]. split; [done|]. split; [by apply (slice_sok Cap Hz)|].
  split; [by apply (as_slice_ok Hz)|]. done.
Qed.
Lemma p_C71_dedup_by : forall (EN : Env) (T : Type) (EL : Elem T) (Cap : N) s (w : world T) v wv xs
    (St : Type) (f : St -> T -> T -> St * (T * T) * option bool) st,
  0 < t_size -> sreached Cap s w xs -> reached v wv xs ->
  exists o s' w' v' wv' zs ds,
    sv_dedup_by Cap f st (s, w) = (o, (s', w')) /\ dedup_by f st (v, wv) = (o, (v', wv')) /\
    sv_slice s' w' = (Ret zs, w') /\ vec_as_slice v' wv' = (Ret zs, wv') /\
    drops w' = drops w ++ ds /\ drops wv' = drops wv ++ ds /\ srest s' w' = srest s w.
Proof.
  intros EN T EL Cap s w v wv xs St f st Hz Hr Hv. sreach Hr. pose proof (reached_rep Hz _ _ _ Hv) as Hrep.
  destruct (dedup_by_sok Hz Cap HCap f st w s xs Hr) as (s'&w'&o&zs&ds&He&Ha&Hr'&(Hh&Hd&_)).
  destruct (vec_dedup_by_ok Hz f st wv v xs Hrep) as (v'&wv'&o'&zs'&ds'&He'&Ha'&Hrep'&(_&Hd'&_)).
  rewrite Ha in Ha'. injection Ha' as <- <- <-.
  exists o, s', w', v', wv', zs, ds. split; [done|]. split; [done|]. split; [by apply (slice_sok Cap Hz)|].
  split; [by apply (as_slice_ok Hz)|]. done.
Qed.
Lemma p_C71_dedup : forall (EN : Env) (T : Type) (EL : Elem T) (Cap : N) s (w : world T) v wv xs
    (same : T -> T -> bool),
  0 < t_size -> sreached Cap s w xs -> reached v wv xs ->
  exists o s' w' v' wv' zs ds,
    sv_dedup Cap same (s, w) = (o, (s', w')) /\ dedup same (v, wv) = (o, (v', wv')) /\
    sv_slice s' w' = (Ret zs, w') /\ vec_as_slice v' wv' = (Ret zs, wv') /\
    drops w' = drops w ++ ds /\ drops wv' = drops wv ++ ds /\ srest s' w' = srest s w.
Proof.
  intros EN T EL Cap s w v wv xs same Hz Hr Hv.
  exact (p_C71_dedup_by EN T EL Cap s w v wv xs unit _ tt Hz Hr Hv).
Qed.
Lemma p_C71_dedup_by_key : forall (EN : Env) (T : Type) (EL : Elem T) (Cap : N) s (w : world T) v wv xs
    (St K : Type) (keq : K -> K -> bool) (key : St -> T -> St * T * option K) st,
  0 < t_size -> sreached Cap s w xs -> reached v wv xs ->
  exists o s' w' v' wv' zs ds,
    sv_dedup_by_key Cap keq key st (s, w) = (o, (s', w')) /\ dedup_by_key keq key st (v, wv) = (o, (v', wv')) /\
    sv_slice s' w' = (Ret zs, w') /\ vec_as_slice v' wv' = (Ret zs, wv') /\
    drops w' = drops w ++ ds /\ drops wv' = drops wv ++ ds /\ srest s' w' = srest s w.
Proof.
  intros EN T EL Cap s w v wv xs St K keq key st Hz Hr Hv. sreach Hr. pose proof (reached_rep Hz _ _ _ Hv) as Hrep.
  destruct (dedup_by_key_sok Hz Cap HCap keq key st w s xs Hr) as (s'&w'&o&zs&ds&He&Ha&Hr'&(Hh&Hd&_)).
  destruct (vec_dedup_by_key_ok Hz keq key st wv v xs Hrep) as (v'&wv'&o'&zs'&ds'&He'&Ha'&Hrep'&(_&Hd'&_)).
  rewrite Ha in Ha'. injection Ha' as <- <- <-.
  exists o, s', w', v', wv', zs, ds. split; [done|]. split; [done|]. split; [by apply (slice_sok Cap Hz)|].
  split; [by apply (as_slice_ok Hz)|]. done.
Qed.
Lemma x_C71_ex :
  @sreached env_debug N num_drop 4 (fst (sin env_debug num_drop)) (snd (sin env_debug num_drop)) [1; 2; 3] /\
  @reached env_debug N num_drop (v123 env_debug num_drop) (w123 env_debug num_drop) [1; 2; 3] /\
  let f := fun (st x : N) => (st + x, Some (x =? 1)) in
  fst (@sv_retain env_debug N num_drop 4 N f 0 (sin env_debug num_drop)) = Ret 4 /\
  fst (@retain env_debug N _ (@vec_vecx env_debug N num_drop) N f 0 (v123 env_debug num_drop, w123 env_debug num_drop)) = Ret 4.
Proof. split; [apply sin_reached|]. split; [apply reached123_drop|]. by split; vm_compute. Qed.
