(** Proofs of the statements collected in PropertiesPanic.v: histories with panicking destructors. *)
From Verif Require Export VecFacts3 SmallFacts SpecSmallPanic.
From Coq Require Import ZifyBool ZifyNat ZifyN.

(** * C109 *)

Lemma settle_handed {T} {EL : Elem T} R cl (xs : list T) op ins o xs' ds :
  vspec R cl xs op ins o xs' ds -> handed_out (settle drop_panics o ds) = handed_out o.
Proof.
  destruct 1; try (by rewrite settle_nil);
    rewrite ?settle_panic, ?settle_ret; by destruct (culprits drop_panics _) as [|? []].
Qed.
Lemma dtrace_ledger {T} {EL : Elem T} R cl (xs : list T) ops ins outs xs' ds :
  dtrace drop_panics R cl xs ops ins outs xs' ds ->
  Forall2 (fun op o => op = OClear -> o = Ret RUnit) ops outs ->
  xs ++ ins ≡ₚ concat (handed_out <$> outs) ++ ds ++ xs'.
Proof.
  induction 1 as [|xs op ops i1 i2 o outs xs1 xs2 d1 d2 Hna Hs Ht IH]; intros Hc.
  { simpl. by rewrite app_nil_r. }
  inversion Hc as [|???? Hc1 Hc2]; subst. specialize (IH Hc2). simpl.
  destruct Hs as [xs op i1 o xs1 d1 Hs _|xs Hcu]; [|by specialize (Hc1 eq_refl)].
  pose proof (settle_handed _ _ _ _ _ _ _ _ Hs) as Hh. rewrite Hh. apply vspec_ledger in Hs.
  rewrite app_assoc, Hs, <-!app_assoc. f_equiv. rewrite IH. solve_Permutation.
Qed.

(** Every history, whatever the destructors of the elements do.  Each call acts on the contents as
    the list specification says; what it returns is adjusted for the destructors that panicked
    ([settle]).  The history ends early only at one of the undefined calls of C06 or when the
    process is aborted, and [dspec] says when that is. *)
Lemma p_C109_history : forall (EN : Env) (T : Type) (EL : Elem T) (w : world T) ops v0 w0,
  0 < t_size -> wok w ->
  N.max (2 * total_demand ops) 8 * t_size <= isize_max + 1 - t_align ->
  vec_new w = (Ret v0, w0) ->
  let panics x := t_needs_drop && t_drop_panics x in
  exists outs v w1, vrun ops (v0, w0) = (outs, (v, w1)) /\
    ((exists ins xs ds, dtrace panics refuses t_clone [] ops ins outs xs ds /\
        vec_as_slice v w1 = (Ret xs, w1) /\ v_len v = llen xs /\
        delete_ptr (vdata v) (heap w1) = heap w /\ drops w1 = drops w ++ ds) \/
     (exists pre op post ins outs' xs ds o, ops = pre ++ op :: post /\ outs = outs' ++ [o] /\
        dtrace panics refuses t_clone [] pre ins outs' xs ds /\
        ((exists u, o = UB u /\ unsound xs op u) \/
         (o = Abort /\ exists i xs2 d2, dspec panics refuses t_clone xs op i Abort xs2 d2)))).
Proof.
  intros EN T EL w ops v0 w0 Hz Hw Hf Hn. cbv zeta.
  change (fun x : T => t_needs_drop && t_drop_panics x) with (@drop_panics T EL).
  destruct (new_born Hz w Hw) as (v1&w2&He&Hrep&Hb&_&Hc). rewrite Hn in He. injection He as <- <-.
  destruct (run_gen Hz ops 0 w0 v0 [] Hrep) as (outs&v&w1&He&Hcase);
    [lia|simpl; lia|by rewrite N.add_0_l|].
  exists outs, v, w1. split; [done|]. destruct Hb as (Hb1&Hb2&_).
  destruct Hcase as [(ins&xs&ds&Ht&Hr&[Ha1 Ha2]&_)|(pre&op&post&ins&outs'&xs&ds&o&->&->&Ht&Ho)].
  - left. exists ins, xs, ds. split_and!; [done|by apply (as_slice_ok Hz)|by destruct Hr| |].
    + unfold vrest in *. congruence.
    + by rewrite Ha2, Hb2, app_nil_r.
  - right. exists pre, op, post, ins, outs', xs, ds, o. split_and!; try done.
    destruct Ho as [?|(->&?)]; [by left|by right].
Qed.
Lemma x_C109_history_ex :
  wok w_start /\
  @demo_outs env_debug N num_bomb w_start [OPush 5; OPush 13; OPush 6; OTruncate 1; OPush 13; OAssign 1 4; OAsSlice; OPush 13;
      OResize 1 8; OAsSlice; OPush 13; OClear; OAsSlice; OResize 1 13; OAsSlice]
  = [Ret RUnit; Ret RUnit; Ret RUnit; Panic PDrop; Ret RUnit; Panic PDrop; Ret (RList [5; 4]); Ret RUnit;
     Panic PDrop; Ret (RList [5]); Ret RUnit; Panic PDrop; Ret (RList [5; 13]); Abort].
Proof. split; [apply w_start_ok|]. vm_compute. reflexivity. Qed.

(** The values that came in are accounted for, as long as every [clear] returned: handed back,
    destroyed, or still in the vector.  Dropping the vector then destroys its elements up to the
    first one whose destructor panics, and gives the memory back unless there is one. *)
Lemma p_C109_ledger : forall (EN : Env) (T : Type) (EL : Elem T) (w : world T) ops v0 w0 outs v w1,
  0 < t_size -> wok w ->
  N.max (2 * total_demand ops) 8 * t_size <= isize_max + 1 - t_align ->
  vec_new w = (Ret v0, w0) -> vrun ops (v0, w0) = (outs, (v, w1)) -> Forall defined outs ->
  Forall2 (fun op o => op = OClear -> o = Ret RUnit) ops outs ->
  let panics x := t_needs_drop && t_drop_panics x in
  exists ins xs ds w2, dtrace panics refuses t_clone [] ops ins outs xs ds /\
    ins ≡ₚ concat (handed_out <$> outs) ++ ds ++ xs /\
    vec_drop_val v w1 = (match culprits panics xs with [] => Ret tt | _ => Panic PDrop end, w2) /\
    drops w2 = drops w ++ ds ++ up_to panics 1 xs /\
    (culprits panics xs = [] -> heap w2 = heap w).
Proof.
  intros EN T EL w ops v0 w0 outs v w1 Hz Hw Hf Hn He Hd Hcl. cbv zeta.
  change (fun x : T => t_needs_drop && t_drop_panics x) with (@drop_panics T EL).
  destruct (new_born Hz w Hw) as (v1&w2&He1&Hrep&Hb&_&Hc). rewrite Hn in He1. injection He1 as <- <-.
  destruct (run_gen Hz ops 0 w0 v0 [] Hrep) as (outs1&v1&w3&He1&Hcase);
    [lia|simpl; lia|by rewrite N.add_0_l|].
  rewrite He in He1. injection He1 as <- <- <-. destruct Hb as (Hb1&Hb2&_).
  destruct Hcase as [(ins&xs&ds&Ht&Hr&[Ha1 Ha2]&_)|(pre&op&post&ins&outs'&xs&ds&o&_&->&_&Ho)].
  2: { apply Forall_app in Hd as [_ Hd]. inversion Hd as [|?? [[? ?]|[? ?]] _]; destruct Ho as [(?&?&_)|[? _]]; congruence. }
  destruct (drop_exact Hz _ _ _ Hr) as (w2&Hdr&Hdd&Hh).
  exists ins, xs, ds, w2. split_and!; [done| |done| |].
  - by apply (dtrace_ledger _ _ []) in Ht.
  - by rewrite Hdd, Ha2, Hb2, app_nil_r, <-app_assoc.
  - intros E. rewrite E in Hh. rewrite Hh. unfold vrest in *. congruence.
Qed.
Lemma x_C109_ledger_ex :
  Forall defined (@demo_outs env_debug N num_bomb w_start [OPush 5; OPush 13; OPush 6; OTruncate 1; OPush 7]) /\
  drops (snd (@demo env_debug N num_bomb w_start [OPush 5; OPush 13; OPush 6; OTruncate 1; OPush 7])) = [13; 6].
Proof. split; [by apply definedb_ok; vm_compute|by vm_compute]. Qed.

(** * C110 *)

(** The same for [SmallVec]: every history, for every inline capacity, whatever the destructors do.
    The history ends early only at one of the undefined calls of C32 or when the process is
    aborted. *)
Lemma p_C110_history : forall (EN : Env) (T : Type) (EL : Elem T) (Cap : N) (w : world T) ops,
  0 < t_size -> wok w -> Cap * t_size <= isize_max + 1 - t_align ->
  (total_sdemand ops + 8) * t_size <= isize_max + 1 - t_align ->
  let panics x := t_needs_drop && t_drop_panics x in
  let minc := if t_size =? 1 then 8 else if t_size <=? 1024 then 4 else 1 in
  exists outs s w1, srun Cap ops (sv_new Cap, w) = (outs, (s, w1)) /\
    ((exists ins xs ds ls, dstrace panics refuses t_clone [] ops ins outs xs ds ls /\
        sv_slice s w1 = (Ret xs, w1) /\ sv_len s = llen xs /\
        srest s w1 = heap w /\ drops w1 = drops w ++ ds) \/
     (exists pre op post ins outs' xs ds ls b o, ops = pre ++ op :: post /\ outs = outs' ++ [(b, o)] /\
        dstrace panics refuses t_clone [] pre ins outs' xs ds ls /\
        ((exists u, o = UB u /\ unsound_small e_strict e_checks Cap minc b xs op u) \/
         (o = Abort /\ exists i xs2 d2 l2, dsspec panics refuses t_clone b xs op i Abort xs2 d2 l2)))).
Proof.
  intros EN T EL Cap w ops Hz Hw HC Hf. cbv zeta.
  change (fun x : T => t_needs_drop && t_drop_panics x) with (@drop_panics T EL).
  destruct (new_sok Hz Cap w Hw) as [Hr (Hb&_)].
  destruct (srun_gen Cap Hz HC ops 0 w (sv_new Cap) [] Hr) as (outs&s&w1&He&Hcase);
    [by vm_compute|simpl; lia|by rewrite N.add_0_l|].
  exists outs, s, w1. split; [done|].
  destruct Hcase as [(ins&xs&ds&ls&Ht&Hr3&[Ha1 Ha2]&_)|(pre&op&post&ins&outs'&xs&ds&ls&b&o&->&->&Ht&Ho)].
  - left. exists ins, xs, ds, ls. split; [done|]. split; [by apply (slice_sok Cap Hz)|].
    split; [by apply (srep_len Hz Cap HC _ _ _ Hr3)|]. split; [by rewrite Ha1, Hb|done].
  - right. exists pre, op, post, ins, outs', xs, ds, ls, b, o. split; [done|]. split; [done|]. split; [done|].
    destruct Ho as [?|?]; [by left|by right].
Qed.
Lemma x_C110_history_ex :
  wok w_start /\
  @sdemo_outs env_debug N num_bomb 4 w_start [SPush 5; SPush 13; SPush 6; SClear; SAsSlice; SPush 5; SPush 13; SMoveToHeap;
    SClear; SAsSlice; STruncate 1; SAsSlice; SAssign 9 13; SLen]
  = [(true, Ret RUnit); (true, Ret RUnit); (true, Ret RUnit); (true, Panic PDrop); (true, Ret (RList []));
     (true, Ret RUnit); (true, Ret RUnit); (true, Ret RUnit); (false, Panic PDrop); (false, Ret (RList [5; 13]));
     (false, Panic PDrop); (false, Ret (RList [5])); (false, Abort)].
Proof. split; [apply w_start_ok|]. vm_compute. reflexivity. Qed.

Lemma settle_handed_s {T} {EL : Elem T} R cl b (xs : list T) op ins o xs' ds ls :
  sspec R cl b xs op ins o xs' ds ls -> handed_out (settle drop_panics o ds) = handed_out o.
Proof.
  destruct 1; try (by rewrite settle_nil);
    rewrite ?settle_panic, ?settle_ret; by destruct (culprits drop_panics _) as [|? []].
Qed.
Lemma dstrace_ledger {T} {EL : Elem T} R cl (xs : list T) ops ins outs xs' ds ls :
  dstrace drop_panics R cl xs ops ins outs xs' ds ls ->
  Forall2 (fun op o => op = SClear -> o.1 = false -> o.2 = Ret RUnit) ops outs ->
  xs ++ ins ≡ₚ concat (handed_out <$> outs.*2) ++ ds ++ ls ++ xs'.
Proof.
  induction 1 as [|xs op ops i1 i2 b o outs xs1 xs2 d1 d2 l1 l2 Hna Hs Ht IH]; intros Hc.
  { simpl. by rewrite app_nil_r. }
  inversion Hc as [|???? Hc1 Hc2]; subst. specialize (IH Hc2). simpl.
  assert (xs ++ i1 ≡ₚ handed_out o ++ d1 ++ l1 ++ xs1) as E.
  { destruct Hs as [xs op i1 o xs1 d1 l1 Hs _|xs -> Hcu|xs l1 -> Hcu Hxs].
    - rewrite (settle_handed_s _ _ _ _ _ _ _ _ _ _ Hs). by eapply sspec_ledger.
    - by specialize (Hc1 eq_refl eq_refl).
    - simpl. rewrite !app_nil_r. by rewrite Hxs at 1. }
  rewrite app_assoc, E, <-!app_assoc. f_equiv. rewrite IH. solve_Permutation.
Qed.
Lemma dstrace_leak {T} {EL : Elem T} R cl (xs : list T) ops ins outs xs' ds ls :
  dstrace drop_panics R cl xs ops ins outs xs' ds ls ->
  Forall2 (fun op o => o.1 = true -> (forall n, op <> STruncate n) /\ (op = SClear -> o.2 = Ret RUnit)) ops outs ->
  ls = [].
Proof.
  induction 1 as [|xs op ops i1 i2 b o outs xs1 xs2 d1 d2 l1 l2 Hna Hs Ht IH]; intros Hc; [done|].
  inversion Hc as [|???? Hc1 Hc2]; subst. rewrite (IH Hc2), app_nil_r. simpl in Hc1.
  destruct Hs as [xs op i1 o xs1 d1 l1 Hs _|xs -> Hcu|xs l1 -> Hcu Hxs]; [|done|].
  - apply sspec_leak in Hs as [?|[-> [n ->]]]; [done|]. destruct (Hc1 eq_refl) as [Hn _]. by destruct (Hn n).
  - destruct (Hc1 eq_refl) as [_ Hn]. by specialize (Hn eq_refl).
Qed.

(** The values that came in are accounted for, as long as no [clear] of a spilled vector panicked:
    handed back, destroyed, lost, or still in the vector; values are lost only by [truncate] and by
    a panicking [clear], both inline.  Dropping the vector destroys its elements up to the first one
    whose destructor panics, and gives the memory back unless there is one. *)
Lemma p_C110_ledger : forall (EN : Env) (T : Type) (EL : Elem T) (Cap : N) (w : world T) ops outs s w1,
  0 < t_size -> wok w -> Cap * t_size <= isize_max + 1 - t_align ->
  (total_sdemand ops + 8) * t_size <= isize_max + 1 - t_align ->
  srun Cap ops (sv_new Cap, w) = (outs, (s, w1)) -> Forall (fun o => defined o.2) outs ->
  Forall2 (fun op o => op = SClear -> o.1 = false -> o.2 = Ret RUnit) ops outs ->
  let panics x := t_needs_drop && t_drop_panics x in
  exists ins xs ds ls w2, dstrace panics refuses t_clone [] ops ins outs xs ds ls /\
    ins ≡ₚ concat (handed_out <$> outs.*2) ++ ds ++ ls ++ xs /\
    (Forall2 (fun op o => o.1 = true -> (forall n, op <> STruncate n) /\ (op = SClear -> o.2 = Ret RUnit)) ops outs ->
     ls = []) /\
    sv_drop_val s w1 = (match culprits panics xs with [] => Ret tt | _ => Panic PDrop end, w2) /\
    drops w2 = drops w ++ ds ++ up_to panics 1 xs /\
    (culprits panics xs = [] -> heap w2 = heap w).
Proof.
  intros EN T EL Cap w ops outs s w1 Hz Hw HC Hf He Hd Hcl. cbv zeta.
  change (fun x : T => t_needs_drop && t_drop_panics x) with (@drop_panics T EL).
  destruct (new_srun_gen Cap Hz ops w outs s w1 Hw HC Hf He Hd) as (ins&xs&ds&ls&Ht&Hr&Hv&Hds).
  destruct (drop_val_exact_s Hz Cap w1 s xs Hr) as (w2&Hdr&Hdd&Hh).
  exists ins, xs, ds, ls, w2. split; [done|]. split; [by apply (dstrace_ledger _ _ []) in Ht|].
  split; [by eapply dstrace_leak|]. split; [done|]. split; [by rewrite Hdd, Hds, <-app_assoc|].
  intros E. rewrite E in Hh. by rewrite Hh.
Qed.
Lemma x_C110_ledger_ex :
  let ops := [SPush 5; SPush 13; SPush 6; SClear; SPush 7; SPush 13; SMoveToHeap; SPush 8] in
  Forall (fun o => defined o.2) (@sdemo_outs env_debug N num_bomb 4 w_start ops) /\
  drops (snd (@sdemo env_debug N num_bomb 4 w_start ops)) = [5; 13] /\
  drops (snd (@sv_drop_val N num_bomb (fst (@sdemo env_debug N num_bomb 4 w_start ops))
    (snd (@sdemo env_debug N num_bomb 4 w_start ops)))) = [5; 13; 7; 13].
Proof.
  split; [|by split; vm_compute].
  match goal with |- Forall _ ?l => assert (forallb definedb (snd <$> l) = true) as H by (by vm_compute) end.
  apply definedb_ok in H. by rewrite Forall_fmap in H.
Qed.
