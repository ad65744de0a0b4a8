(** Properties C113-C114: markers of SmallVec and String. *)
From Verif Require Import MarkFacts.

(** Made with the marker [m], inline or on the heap, a small vector keeps it and selects every
    allocator with it, over all histories without [append] (which creates a second vector), and
    hands it on to the [Vec] it can be turned into. *)
Theorem C113_history : forall (EN : Env) (T : Type) (EL : Elem T) (Cap : N) (w : world T) c m r w0,
  0 < t_size -> sv_try_with_capacity_and_marker Cap c m w = (r, w0) ->
  let asks w w' := exists evs, events w' = events w ++ evs /\
    Forall (fun e => match e with EvSelect _ s => sel_marker s = m | _ => True end) evs in
  asks w w0 /\
  forall s0, r = Ret (Ok s0) -> sv_marker s0 = m /\
  forall ops outs s w1, Forall (fun op => match op with SAppend _ => False | _ => True end) ops ->
  srun Cap ops (s0, w0) = (outs, (s, w1)) ->
  sv_marker s = m /\ asks w0 w1 /\
  forall r' w2, sv_into_vec s w1 = (r', w2) -> asks w1 w2 /\ forall v, r' = Ret v -> vmarker v = m.
Proof. exact p_C113_history. Qed.
Print Assumptions C113_history.

Example C113_history_ex : exists s0 w0 outs s w1,
  @sv_try_with_capacity_and_marker env_debug N num 2 1 (MType 3) w_start = (Ret (Ok s0), w0) /\
  @srun env_debug N num 2 [SPush 1; SPush 2; SPush 3; SReserve 9; SPop; SShrinkToFit] (s0, w0) = (outs, (s, w1)) /\
  is_stack s0 = true /\ is_stack s = false /\ sv_marker s = MType 3 /\
  length (List.filter (fun e => match e with EvSelect _ _ => true | _ => false end) (events w1)) = 1%nat.
Proof. exact x_C113_history_ex. Qed.

(** The same for the calls outside of histories: appending another vector and resizing; and for a
    small vector made from a [Vec], with the marker of the [Vec]. *)
Theorem C113_calls : forall (EN : Env) (T : Type) (EL : Elem T) (Cap : N) v ops outs s (w w1 : world T),
  0 < t_size ->
  Forall (fun op => match op with SAppend _ => False | _ => True end) ops ->
  srun Cap ops (sv_from_vec v, w) = (outs, (s, w1)) ->
  let asks w w' := exists evs, events w' = events w ++ evs /\
    Forall (fun e => match e with EvSelect _ s => sel_marker s = vmarker v | _ => True end) evs in
  sv_marker s = vmarker v /\ asks w w1 /\
  (forall o r s' w2, sv_append Cap o (s, w1) = (r, (s', w2)) -> sv_marker s' = vmarker v /\ asks w1 w2) /\
  (forall n x r s' w2, sv_resize Cap n x (s, w1) = (r, (s', w2)) -> sv_marker s' = vmarker v /\ asks w1 w2) /\
  (forall n g r s' w2, sv_resize_with Cap n g (s, w1) = (r, (s', w2)) -> sv_marker s' = vmarker v /\ asks w1 w2).
Proof. exact p_C113_calls. Qed.
Print Assumptions C113_calls.

Example C113_calls_ex : exists v w0 outs s w1 s' w2,
  @vec_try_with_capacity_and_marker env_debug N num 2 (MType 3) w_start = (Ret (Ok v), w0) /\
  @srun env_debug N num 4 [SPush 1; SPush 2] (sv_from_vec v, w0) = (outs, (s, w1)) /\
  @sv_resize env_debug N num 4 9 7 (s, w1) = (Ret tt, (s', w2)) /\
  sv_len s' = 9 /\ sv_marker s' = MType 3.
Proof. exact x_C113_calls_ex. Qed.

(** With a non-zero starting capacity a string keeps its marker and selects every allocator with
    it, over all histories without the calls that create further strings. *)
Theorem C114_string_partial : forall (EN : Env) (w : world N) c m v0 w0 ops outs v w1,
  c <> 0 ->
  str_try_with_capacity_and_marker c m w = (Ret (Ok v0), w0) \/ str_with_capacity_and_marker c m w = (Ret v0, w0) ->
  Forall (fun op => match op with TExtendStrings _ | TSplitOff _ | TMutVec (OAppend _) => False | _ => True end) ops ->
  trun ops (v0, w0) = (outs, (v, w1)) ->
  vmarker v = m /\
  exists evs, events w1 = events w ++ evs /\
    Forall (fun e => match e with EvSelect _ s => sel_marker s = m | _ => True end) evs.
Proof. exact p_C114_string_partial. Qed.
Print Assumptions C114_string_partial.

Example C114_string_ex : exists v0 w0 outs v w1,
  @str_with_capacity_and_marker env_debug 2 (MType 3) w_start = (Ret v0, w0) /\
  @trun env_debug [TPushStr [97; 98; 8364]; TReserve 99; TPush 99; TPop; TPop] (v0, w0) = (outs, (v, w1)) /\
  v_len v = 2 /\ vmarker v = MType 3.
Proof. exact x_C114_string_ex. Qed.

(** Without a starting capacity the marker is forgotten. *)
Theorem C114_string_refuted : forall (EN : Env) (w : world N) m v w',
  str_with_marker m w = (Ret v, w') \/ str_with_capacity_and_marker 0 m w = (Ret v, w') \/
  str_try_with_capacity_and_marker 0 m w = (Ret (Ok v), w') ->
  vmarker v = MNone.
Proof. exact p_C114_string_refuted. Qed.
Print Assumptions C114_string_refuted.

Example C114_string_refuted_ex : exists v w',
  @str_with_marker env_debug (MType 3) w_start = (Ret v, w') /\ vmarker v = MNone.
Proof. exact x_C114_string_refuted_ex. Qed.
