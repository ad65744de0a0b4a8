(** Properties C72-C78: well-behaved uses of Vec, SmallVec and String. *)
From Verif Require Import CalmFacts.

(** Every history of calm calls on a new vector, whatever the allocator does, returns call by call
    what the list specification says; at the end the vector shows [xs]; dropping it destroys what is
    left, and then every value that came in was handed out or destroyed exactly once and the heap is
    as before. *)
Theorem C72_vec_history : forall (EN : Env) (T : Type) (EL : Elem T) (w : world T) ops,
  0 < t_size -> no_drop_panic -> wok w ->
  N.max (2 * total_demand ops) 8 * t_size <= isize_max + 1 - t_align ->
  Forall (calm_vec e_strict) ops ->
  exists v0 w0 outs v w1 w2 ins xs ds,
    vec_new w = (Ret v0, w0) /\ vrun ops (v0, w0) = (outs, (v, w1)) /\
    vtrace refuses t_clone [] ops ins outs xs ds /\
    vec_as_slice v w1 = (Ret xs, w1) /\ v_len v = llen xs /\
    vec_drop_val v w1 = (Ret tt, w2) /\ heap w2 = heap w /\ drops w2 = drops w ++ ds ++ xs /\
    ins ≡ₚ concat (handed_out <$> outs) ++ ds ++ xs.
Proof. exact p_C72_vec_history. Qed.
Print Assumptions C72_vec_history.

Example C72_vec_history_ex :
  let ops := ops123 ++ [OShrinkTo 4; OIndex 7; OResize 5 8; OTruncate 4; OAsSlice] in
  wok w_start /\ N.max (2 * total_demand ops) 8 * @t_size N num_drop <= isize_max + 1 - 8 /\
  Forall (calm_vec true) ops /\
  @demo_outs env_debug N num_drop w_start ops
  = [Ret RUnit; Ret RUnit; Ret RUnit; Ret (RVal 9); Ret RUnit; Ret RUnit; Ret RUnit; Panic PIndex;
     Ret RUnit; Ret RUnit; Ret (RList [1; 2; 3; 8])].
Proof. exact x_C72_vec_history_ex. Qed.

(** [swap_remove] of an index before the last one, of the only element, or of any element when
    library preconditions do not count: the element is returned, the last one takes its place, nothing
    is destroyed and no other memory changes. *)
Theorem C73_swap_remove : forall (EN : Env) (T : Type) (EL : Elem T) v (w : world T) xs i x,
  0 < t_size -> reached v w xs -> xs !! N.to_nat i = Some x ->
  i + 1 < llen xs \/ llen xs = 1 \/ e_strict = false ->
  exists v' w' ys, vec_swap_remove i (v, w) = (Ret x, (v', w')) /\
    vec_as_slice v' w' = (Ret ys, w') /\ drops w' = drops w /\ vcap v' = vcap v /\
    delete_ptr (vdata v') (heap w') = delete_ptr (vdata v) (heap w) /\
    llen ys + 1 = llen xs /\
    forall k, (k < length ys)%nat -> ys !! k = if (k =? N.to_nat i)%nat then last xs else xs !! k.
Proof. exact p_C73_swap_remove. Qed.
Print Assumptions C73_swap_remove.

Example C73_swap_remove_ex :
  @reached env_debug N num_drop (v123 env_debug num_drop) (w123 env_debug num_drop) [1; 2; 3] /\
  [1; 2; 3] !! N.to_nat 0 = Some 1 /\ 0 + 1 < llen [1; 2; 3] /\
  exists st, @vec_swap_remove env_debug N num_drop 0 (v123 env_debug num_drop, w123 env_debug num_drop)
    = (Ret 1, st) /\ fst (@vec_as_slice N num_drop (fst st) (snd st)) = Ret [3; 2].
Proof. exact x_C73_swap_remove_ex. Qed.

(** A [SmallVec] of any inline capacity used as a stack, buffer or array: the full list behaviour, on
    the stack and across the move to the heap; nothing is lost. *)
Theorem C74_small_history : forall (EN : Env) (T : Type) (EL : Elem T) (Cap : N) (w : world T) ops,
  0 < t_size -> no_drop_panic -> wok w -> Cap * t_size <= isize_max + 1 - t_align ->
  (total_sdemand ops + 8) * t_size <= isize_max + 1 - t_align ->
  Forall (calm_small e_strict) ops ->
  exists outs s w1 w2 ins xs ds,
    srun Cap ops (sv_new Cap, w) = (outs, (s, w1)) /\
    strace refuses t_clone [] ops ins outs xs ds [] /\
    sv_slice s w1 = (Ret xs, w1) /\ sv_len s = llen xs /\
    sv_drop_val s w1 = (Ret tt, w2) /\ heap w2 = heap w /\ drops w2 = drops w ++ ds ++ xs /\
    ins ≡ₚ concat (handed_out <$> outs.*2) ++ ds ++ xs.
Proof. exact p_C74_small_history. Qed.
Print Assumptions C74_small_history.

Example C74_small_history_ex :
  let ops := [SPush 1; SPush 2; SPush 3; SAssign 0 7; SPop; SIndex 5; SAppend [4; 5]; SExtendSlice [6];
              SShrinkTo 5; SAsSlice] in
  wok w_start /\ 4 * @t_size N num_drop <= isize_max + 1 - 8 /\
  (total_sdemand ops + 8) * @t_size N num_drop <= isize_max + 1 - 8 /\ Forall (calm_small true) ops /\
  @sdemo_outs env_debug N num_drop 4 w_start ops
  = [(true, Ret RUnit); (true, Ret RUnit); (true, Ret RUnit); (true, Ret RUnit); (true, Ret (ROpt (Some 3)));
     (true, Panic PUnwrap); (true, Ret RUnit); (true, Ret RUnit); (false, Ret RUnit);
     (false, Ret (RList [7; 2; 4; 5; 6]))].
Proof. exact x_C74_small_history_ex. Qed.

(** A [SmallVec] that was moved to the heap: from then on, as long as it is not moved back, every
    call, [insert], [remove] and [truncate] included, behaves as on a list, and nothing is lost. *)
Theorem C75_spilled_history : forall (EN : Env) (T : Type) (EL : Elem T) (Cap : N) (w : world T) ops,
  0 < t_size -> no_drop_panic -> wok w -> Cap * t_size <= isize_max + 1 - t_align ->
  (total_sdemand ops + 8) * t_size <= isize_max + 1 - t_align ->
  Forall (calm_heap e_strict) ops ->
  exists r s0 w0, sv_move_to_heap (sv_new Cap, w) = (r, (s0, w0)) /\
  ((r = Panic PUnwrap /\ refuses /\ s0 = sv_new Cap /\ heap w0 = heap w) \/
   (r = Ret tt /\ is_stack s0 = false /\
    exists outs s w1 w2 ins xs ds,
      srun Cap ops (s0, w0) = (outs, (s, w1)) /\ Forall (fun o => fst o = false) outs /\
      strace refuses t_clone [] ops ins outs xs ds [] /\
      sv_slice s w1 = (Ret xs, w1) /\ sv_len s = llen xs /\ is_stack s = false /\
      sv_drop_val s w1 = (Ret tt, w2) /\ heap w2 = heap w /\ drops w2 = drops w ++ ds ++ xs /\
      ins ≡ₚ concat (handed_out <$> outs.*2) ++ ds ++ xs)).
Proof. exact p_C75_spilled_history. Qed.
Print Assumptions C75_spilled_history.

Example C75_spilled_history_ex :
  let ops := [SPush 1; SInsert 1 2; SInsert 0 3; SRemove 0; SExtendIter [Some 4; Some 5; None] 3;
              STruncate 3; SAsSlice; SInsert 9 9; SAsSlice] in
  wok w_start /\ 4 * @t_size N num_drop <= isize_max + 1 - 8 /\
  (total_sdemand ops + 8) * @t_size N num_drop <= isize_max + 1 - 8 /\ Forall (calm_heap true) ops /\
  @sdemo_outs env_debug N num_drop 4 w_start (SMoveToHeap :: ops)
  = [(true, Ret RUnit); (false, Ret RUnit); (false, Ret RUnit); (false, Ret RUnit); (false, Ret (RVal 3));
     (false, Panic PUser); (false, Ret RUnit); (false, Ret (RList [1; 2; 4])); (false, Panic PAssert);
     (false, Ret (RList [1; 2; 4]))].
Proof. exact x_C75_spilled_history_ex. Qed.

(** Any history of calm calls on a new [String] edits the sequence of characters; the bytes are the
    UTF-8 encoding of the text at the end, and dropping the string releases all memory. *)
Theorem C76_string_history : forall (EN : Env) (w : world N) ops,
  wok w -> N.max (2 * total_tdemand ops) 8 <= isize_max -> Forall args_ok ops ->
  Forall (calm_text e_strict) ops ->
  exists v0 w0 outs v w1 w2 cs bs,
    str_new w = (Ret v0, w0) /\ trun ops (v0, w0) = (outs, (v, w1)) /\
    ttrace refuses [] ops outs cs /\ vec_as_slice v w1 = (Ret bs, w1) /\ text cs bs /\
    v_len v = tlen cs /\ vec_drop_val v w1 = (Ret tt, w2) /\ heap w2 = heap w.
Proof. exact p_C76_string_history. Qed.
Print Assumptions C76_string_history.

Example C76_string_history_ex :
  let ops := [TPushStr [8364; 97]; TPush 98; TInsertStr 3 [233]; TRemove 3; TRemove 1; TPop; TExtendStrs [Some [100; 101]; None];
              TTruncate 2; TSlice (LIncl 3) LOpen; TUpper; TAsStr] in
  wok w_start /\ N.max (2 * total_tdemand ops) 8 <= isize_max /\ Forall args_ok ops /\
  Forall (calm_text true) ops /\
  tdemo_outs (EN:=env_debug) w_start ops
  = [Ret RUnit; Ret RUnit; Ret RUnit; Ret (RVal 233); Panic PIndex; Ret (ROpt (Some 98)); Panic PUser;
     Panic PAssert; Ret (RList [97; 100; 101]); Ret RUnit; Ret (RList [226; 130; 172; 65; 68; 69])].
Proof. exact x_C76_string_history_ex. Qed.

(** Decoding UTF-16 without undefined behaviour: always in the plain reading, and in the strict one
    when all units are ASCII. *)
Theorem C77_from_utf16 : forall (EN : Env) (w : world N) us,
  wok w -> Forall (fun u => u < 65536) us -> 4 * llen us <= isize_max ->
  (e_strict = true -> Forall (fun u => u < 128) us) ->
  exists r w', str_from_utf16 us w = (r, w') /\
  ((exists cs v bs w2, text16 cs us /\ r = Ret (Some v) /\ vec_as_slice v w' = (Ret bs, w') /\ text cs bs /\
      vec_drop_val v w' = (Ret tt, w2) /\ heap w2 = heap w) \/
   ((~ exists cs, text16 cs us) /\ r = Ret None /\ heap w' = heap w) \/
   (r = Panic PUnwrap /\ refuses /\ heap w' = heap w)).
Proof. exact p_C77_from_utf16. Qed.
Print Assumptions C77_from_utf16.

Example C77_from_utf16_ex : wok w_start /\ Forall (fun u => u < 65536) [72; 233; 55357; 56832] /\
  4 * llen [72; 233; 55357; 56832] <= isize_max /\ @e_strict (@e_profile env_release) = false /\
  (let '(r, w) := @str_from_utf16 env_release [72; 233; 55357; 56832] w_start in
   match r with Ret (Some v) => fst (vec_as_slice v w) | _ => Abort end)
  = Ret [72; 195; 169; 240; 159; 152; 128].
Proof. exact x_C77_from_utf16_ex. Qed.

(** Extending by characters: the same restriction. *)
Theorem C78_extend_chars : forall (EN : Env) v (w : world N) cs it h,
  has_text v w cs -> (forall c, Some c ∈ it -> scalar c) ->
  N.max (2 * (vcap v + (4 * llen it + h))) 8 <= isize_max ->
  (e_strict = true -> forall c, Some c ∈ it -> c < 128) ->
  exists r v' w' cs' bs, str_extend_chars it h (v, w) = (r, (v', w')) /\
    appended_it refuses cs (option_map (fun c => [c]) <$> it) r cs' /\
    vec_as_slice v' w' = (Ret bs, w') /\ text cs' bs /\
    delete_ptr (vdata v') (heap w') = delete_ptr (vdata v) (heap w).
Proof. exact p_C78_extend_chars. Qed.
Print Assumptions C78_extend_chars.

Example C78_extend_chars_ex : @has_text env_debug (fst t1) (snd t1) [97; 233; 122] /\
  (forall c, Some c ∈ [Some 65; Some 66; None] -> scalar c) /\
  (@e_strict (@e_profile env_debug) = true -> forall c, Some c ∈ [Some 65; Some 66; None] -> c < 128) /\
  (let '(r, (v, w)) := str_extend_chars (EN:=env_debug) [Some 65; Some 66; None] 2 t1 in
   (r, fst (vec_as_slice v w))) = (Panic PUser, Ret [97; 195; 169; 122; 65; 66]).
Proof. exact x_C78_extend_chars_ex. Qed.
