(** Properties C109-C110: vectors whose elements have panicking destructors. *)
From Verif Require Import PanicFacts.

(** Every history, whatever the destructors of the elements do.  Each call acts on the contents as
    the list specification says; what it returns is adjusted for the destructors that panicked
    ([settle]).  The history ends early only at one of the undefined calls of C06 or when the
    process is aborted, and [dspec] says when that is. *)
Theorem C109_history : forall (EN : Env) (T : Type) (EL : Elem T) (w : world T) ops v0 w0,
  0 < t_size -> wok w ->
  N.max (2 * total_demand ops) 8 * t_size <= isize_max + 1 - t_align ->
  vec_new w = (Ret v0, w0) ->
  let panics x := t_needs_drop && t_drop_panics x in
  exists outs v w1, vrun ops (v0, w0) = (outs, (v, w1)) /\
    ((exists ins xs ds, dtrace panics refuses t_clone [] ops ins outs xs ds /\
        vec_as_slice v w1 = (Ret xs, w1) /\ v_len v = llen xs /\
        delete_ptr (vdata v) (heap w1) = heap w /\ drops w1 = drops w ++ ds) \/
     (exists pre op post ins outs' xs ds o, ops = pre ++ op :: post /\ outs = outs' ++ [o] /\
        dtrace panics refuses t_clone [] pre ins outs' xs ds /\
        ((exists u, o = UB u /\ unsound xs op u) \/
         (o = Abort /\ exists i xs2 d2, dspec panics refuses t_clone xs op i Abort xs2 d2)))).
Proof. exact p_C109_history. Qed.
Print Assumptions C109_history.

Example C109_history_ex :
  wok w_start /\
  @demo_outs env_debug N num_bomb w_start [OPush 5; OPush 13; OPush 6; OTruncate 1; OPush 13; OAssign 1 4; OAsSlice; OPush 13;
      OResize 1 8; OAsSlice; OPush 13; OClear; OAsSlice; OResize 1 13; OAsSlice]
  = [Ret RUnit; Ret RUnit; Ret RUnit; Panic PDrop; Ret RUnit; Panic PDrop; Ret (RList [5; 4]); Ret RUnit;
     Panic PDrop; Ret (RList [5]); Ret RUnit; Panic PDrop; Ret (RList [5; 13]); Abort].
Proof. exact x_C109_history_ex. Qed.

(** The values that came in are accounted for, as long as every [clear] returned: handed back,
    destroyed, or still in the vector.  Dropping the vector then destroys its elements up to the
    first one whose destructor panics, and gives the memory back unless there is one. *)
Theorem C109_ledger : forall (EN : Env) (T : Type) (EL : Elem T) (w : world T) ops v0 w0 outs v w1,
  0 < t_size -> wok w ->
  N.max (2 * total_demand ops) 8 * t_size <= isize_max + 1 - t_align ->
  vec_new w = (Ret v0, w0) -> vrun ops (v0, w0) = (outs, (v, w1)) -> Forall defined outs ->
  Forall2 (fun op o => op = OClear -> o = Ret RUnit) ops outs ->
  let panics x := t_needs_drop && t_drop_panics x in
  exists ins xs ds w2, dtrace panics refuses t_clone [] ops ins outs xs ds /\
    ins ≡ₚ concat (handed_out <$> outs) ++ ds ++ xs /\
    vec_drop_val v w1 = (match culprits panics xs with [] => Ret tt | _ => Panic PDrop end, w2) /\
    drops w2 = drops w ++ ds ++ up_to panics 1 xs /\
    (culprits panics xs = [] -> heap w2 = heap w).
Proof. exact p_C109_ledger. Qed.
Print Assumptions C109_ledger.

Example C109_ledger_ex :
  Forall defined (@demo_outs env_debug N num_bomb w_start [OPush 5; OPush 13; OPush 6; OTruncate 1; OPush 7]) /\
  drops (snd (@demo env_debug N num_bomb w_start [OPush 5; OPush 13; OPush 6; OTruncate 1; OPush 7])) = [13; 6].
Proof. exact x_C109_ledger_ex. Qed.

(** The same for [SmallVec]: every history, for every inline capacity, whatever the destructors do.
    The history ends early only at one of the undefined calls of C32 or when the process is
    aborted. *)
Theorem C110_history : forall (EN : Env) (T : Type) (EL : Elem T) (Cap : N) (w : world T) ops,
  0 < t_size -> wok w -> Cap * t_size <= isize_max + 1 - t_align ->
  (total_sdemand ops + 8) * t_size <= isize_max + 1 - t_align ->
  let panics x := t_needs_drop && t_drop_panics x in
  let minc := if t_size =? 1 then 8 else if t_size <=? 1024 then 4 else 1 in
  exists outs s w1, srun Cap ops (sv_new Cap, w) = (outs, (s, w1)) /\
    ((exists ins xs ds ls, dstrace panics refuses t_clone [] ops ins outs xs ds ls /\
        sv_slice s w1 = (Ret xs, w1) /\ sv_len s = llen xs /\
        srest s w1 = heap w /\ drops w1 = drops w ++ ds) \/
     (exists pre op post ins outs' xs ds ls b o, ops = pre ++ op :: post /\ outs = outs' ++ [(b, o)] /\
        dstrace panics refuses t_clone [] pre ins outs' xs ds ls /\
        ((exists u, o = UB u /\ unsound_small e_strict e_checks Cap minc b xs op u) \/
         (o = Abort /\ exists i xs2 d2 l2, dsspec panics refuses t_clone b xs op i Abort xs2 d2 l2)))).
Proof. exact p_C110_history. Qed.
Print Assumptions C110_history.

Example C110_history_ex :
  wok w_start /\
  @sdemo_outs env_debug N num_bomb 4 w_start [SPush 5; SPush 13; SPush 6; SClear; SAsSlice; SPush 5; SPush 13; SMoveToHeap;
    SClear; SAsSlice; STruncate 1; SAsSlice; SAssign 9 13; SLen]
  = [(true, Ret RUnit); (true, Ret RUnit); (true, Ret RUnit); (true, Panic PDrop); (true, Ret (RList []));
     (true, Ret RUnit); (true, Ret RUnit); (true, Ret RUnit); (false, Panic PDrop); (false, Ret (RList [5; 13]));
     (false, Panic PDrop); (false, Ret (RList [5])); (false, Abort)].
Proof. exact x_C110_history_ex. Qed.

(** The values that came in are accounted for, as long as no [clear] of a spilled vector panicked:
    handed back, destroyed, lost, or still in the vector; values are lost only by [truncate] and by
    a panicking [clear], both inline.  Dropping the vector destroys its elements up to the first one
    whose destructor panics, and gives the memory back unless there is one. *)
Theorem C110_ledger : forall (EN : Env) (T : Type) (EL : Elem T) (Cap : N) (w : world T) ops outs s w1,
  0 < t_size -> wok w -> Cap * t_size <= isize_max + 1 - t_align ->
  (total_sdemand ops + 8) * t_size <= isize_max + 1 - t_align ->
  srun Cap ops (sv_new Cap, w) = (outs, (s, w1)) -> Forall (fun o => defined o.2) outs ->
  Forall2 (fun op o => op = SClear -> o.1 = false -> o.2 = Ret RUnit) ops outs ->
  let panics x := t_needs_drop && t_drop_panics x in
  exists ins xs ds ls w2, dstrace panics refuses t_clone [] ops ins outs xs ds ls /\
    ins ≡ₚ concat (handed_out <$> outs.*2) ++ ds ++ ls ++ xs /\
    (Forall2 (fun op o => o.1 = true -> (forall n, op <> STruncate n) /\ (op = SClear -> o.2 = Ret RUnit)) ops outs ->
     ls = []) /\
    sv_drop_val s w1 = (match culprits panics xs with [] => Ret tt | _ => Panic PDrop end, w2) /\
    drops w2 = drops w ++ ds ++ up_to panics 1 xs /\
    (culprits panics xs = [] -> heap w2 = heap w).
Proof. exact p_C110_ledger. Qed.
Print Assumptions C110_ledger.

Example C110_ledger_ex :
  let ops := [SPush 5; SPush 13; SPush 6; SClear; SPush 7; SPush 13; SMoveToHeap; SPush 8] in
  Forall (fun o => defined o.2) (@sdemo_outs env_debug N num_bomb 4 w_start ops) /\
  drops (snd (@sdemo env_debug N num_bomb 4 w_start ops)) = [5; 13] /\
  drops (snd (@sv_drop_val N num_bomb (fst (@sdemo env_debug N num_bomb 4 w_start ops))
    (snd (@sdemo env_debug N num_bomb 4 w_start ops)))) = [5; 13; 7; 13].
Proof. exact x_C110_ledger_ex. Qed.
