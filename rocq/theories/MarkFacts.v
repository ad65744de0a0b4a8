(** Proofs of the statements collected in PropertiesMark.v: markers of small vectors and strings. *)
From Verif Require Export LogProofs2 VecFacts3 MarkModel MarkProofs.
From Coq Require Import ZifyBool ZifyNat ZifyN.

(** * C113 *)

(** Made with the marker [m], inline or on the heap, a small vector keeps it and selects every
    allocator with it, over all histories without [append] (which creates a second vector), and
    hands it on to the [Vec] it can be turned into. *)
Lemma p_C113_history : forall (EN : Env) (T : Type) (EL : Elem T) (Cap : N) (w : world T) c m r w0,
  0 < t_size -> sv_try_with_capacity_and_marker Cap c m w = (r, w0) ->
  let asks w w' := exists evs, events w' = events w ++ evs /\
    Forall (fun e => match e with EvSelect _ s => sel_marker s = m | _ => True end) evs in
  asks w w0 /\
  forall s0, r = Ret (Ok s0) -> sv_marker s0 = m /\
  forall ops outs s w1, Forall (fun op => match op with SAppend _ => False | _ => True end) ops ->
  srun Cap ops (s0, w0) = (outs, (s, w1)) ->
  sv_marker s = m /\ asks w0 w1 /\
  forall r' w2, sv_into_vec s w1 = (r', w2) -> asks w1 w2 /\ forall v, r' = Ret v -> vmarker v = m.
Proof.
  intros EN T EL Cap w c m r w0 Hz Hn. cbv zeta.
  destruct (new_marker Cap Hz m c w r w0 Hn) as [Hev Hh]. split; [done|]. intros s0 ->.
  specialize (Hh s0 eq_refl). split; [apply Hh|]. intros ops outs s w1 Hops He.
  destruct (smarked_srun Cap Hz m ops Hops (s0, w0) Hh) as [Hs Hev1]. rewrite He in *. simpl in *.
  split; [apply Hs|]. split; [done|]. intros r' w2 Hi. by apply (into_vec_marker Hz m s w1).
Qed.
Lemma x_C113_history_ex : exists s0 w0 outs s w1,
  @sv_try_with_capacity_and_marker env_debug N num 2 1 (MType 3) w_start = (Ret (Ok s0), w0) /\
  @srun env_debug N num 2 [SPush 1; SPush 2; SPush 3; SReserve 9; SPop; SShrinkToFit] (s0, w0) = (outs, (s, w1)) /\
  is_stack s0 = true /\ is_stack s = false /\ sv_marker s = MType 3 /\
  length (List.filter (fun e => match e with EvSelect _ _ => true | _ => false end) (events w1)) = 1%nat.
Proof. do 5 eexists. split; [vm_compute; reflexivity|]. split; [vm_compute; reflexivity|]. by split_and!; vm_compute. Qed.

(** The same for the calls outside of histories: appending another vector and resizing; and for a
    small vector made from a [Vec], with the marker of the [Vec]. *)
Lemma p_C113_calls : forall (EN : Env) (T : Type) (EL : Elem T) (Cap : N) v ops outs s (w w1 : world T),
  0 < t_size ->
  Forall (fun op => match op with SAppend _ => False | _ => True end) ops ->
  srun Cap ops (sv_from_vec v, w) = (outs, (s, w1)) ->
  let asks w w' := exists evs, events w' = events w ++ evs /\
    Forall (fun e => match e with EvSelect _ s => sel_marker s = vmarker v | _ => True end) evs in
  sv_marker s = vmarker v /\ asks w w1 /\
  (forall o r s' w2, sv_append Cap o (s, w1) = (r, (s', w2)) -> sv_marker s' = vmarker v /\ asks w1 w2) /\
  (forall n x r s' w2, sv_resize Cap n x (s, w1) = (r, (s', w2)) -> sv_marker s' = vmarker v /\ asks w1 w2) /\
  (forall n g r s' w2, sv_resize_with Cap n g (s, w1) = (r, (s', w2)) -> sv_marker s' = vmarker v /\ asks w1 w2).
Proof.
  intros EN T EL Cap v ops outs s w w1 Hz Hops He. cbv zeta.
  assert (holds (T := T) (vmarker v) (sv_from_vec v)) as Hh by done.
  destruct (smarked_srun Cap Hz (vmarker v) ops Hops (sv_from_vec v, w) Hh) as [Hs Hev]. rewrite He in *. simpl in *.
  split; [apply Hs|]. split; [done|]. split_and!.
  - intros o r s' w2 Hc. destruct (smarked_append Cap Hz (vmarker v) o (s, w1) Hs) as [[? _] ?]. by rewrite Hc in *.
  - intros n x r s' w2 Hc. destruct (smarked_resize Cap Hz (vmarker v) n x (s, w1) Hs) as [[? _] ?]. by rewrite Hc in *.
  - intros n g r s' w2 Hc. destruct (smarked_resize_with Cap (vmarker v) n g (s, w1) Hs) as [[? _] ?]. by rewrite Hc in *.
Qed.
Lemma x_C113_calls_ex : exists v w0 outs s w1 s' w2,
  @vec_try_with_capacity_and_marker env_debug N num 2 (MType 3) w_start = (Ret (Ok v), w0) /\
  @srun env_debug N num 4 [SPush 1; SPush 2] (sv_from_vec v, w0) = (outs, (s, w1)) /\
  @sv_resize env_debug N num 4 9 7 (s, w1) = (Ret tt, (s', w2)) /\
  sv_len s' = 9 /\ sv_marker s' = MType 3.
Proof.
  do 7 eexists. split; [vm_compute; reflexivity|]. split; [vm_compute; reflexivity|].
  split; [vm_compute; reflexivity|]. by split; vm_compute.
Qed.

(** * C114 *)

Section str_marker.
  Context {EN : Env}.
  Local Existing Instance u8.
  Notation W := (world N).
  Notation MV := (M (vec * W)).

  Create HintDb mk8.
  Hint Resolve marked_ret marked_throw marked_undef marked_get marked_uadd marked_usub marked_umul
    marked_debug_assert marked_assert marked_assume marked_guarded marked_unwrap
    hush_ret hush_copy_at hush_copy_no hush_copy_in hush_drop_val hush_read_list marked_set_len marked_try_reserve
    marked_try_reserve_exact marked_reserve marked_reserve_exact marked_push marked_pop marked_truncate
    marked_clear marked_shrink_to marked_shrink_to_fit marked_slice : mk8.
  Hint Extern 1 (marked (on_snd _)) => apply marked_on_snd : mk8.
  Ltac mm := repeat first
    [ match goal with |- forall _, _ => intro end
    | match goal with
      | |- marked (bind _ _) => apply marked_bind
      | |- marked (on_unwind _ _) => apply marked_on_unwind
      | |- marked (finally _ _) => apply marked_finally
      end
    | solve [auto with mk8]
    | match goal with
      | |- marked (if ?b then _ else _) => destruct b
      | |- marked (match ?b with _ => _ end) => destruct b
      | |- marked (on_snd _) => apply marked_on_snd
      | |- hush (if ?b then _ else _) => destruct b
      | |- hush (bind _ _) => apply hush_bind
      end ].
  Lemma hush_as_slice v : hush (vec_as_slice (T := N) v).
  Proof. unfold vec_as_slice. apply hush_read_list. Qed.
  Hint Resolve hush_as_slice : mk8.
  Lemma marked_bytes : marked str_bytes. Proof. unfold str_bytes. mm. Qed.
  Lemma marked_decoded d : marked (T := N) (decoded_m d). Proof. unfold decoded_m. mm. Qed.
  Lemma marked_uninit : marked uninit_bits. Proof. unfold uninit_bits. mm. Qed.
  Lemma marked_extend_slice l : marked (vec_extend_from_slice (T := N) l).
  Proof.
    intros st. pose proof (marked_vexec (OExtendSlice l) I st) as H. simpl in H. unfold bind in H.
    by destruct (vec_extend_from_slice l st) as [[] st'].
  Qed.
  Hint Resolve marked_bytes marked_decoded marked_uninit marked_extend_slice : mk8.
  Lemma marked_str_push c : marked (str_push c). Proof. unfold str_push. mm. Qed.
  Lemma marked_str_pop : marked str_pop. Proof. unfold str_pop. mm. Qed.
  Lemma marked_push_str s : marked (str_push_str s). Proof. unfold str_push_str. mm. Qed.
  Lemma marked_range bs lo hi : marked (str_range bs lo hi). Proof. unfold str_range. mm. Qed.
  Hint Resolve marked_str_push marked_str_pop marked_push_str marked_range : mk8.
  Lemma marked_str_remove i : marked (str_remove i). Proof. unfold str_remove. mm. Qed.
  Lemma marked_insert_bytes i bs : marked (str_insert_bytes i bs). Proof. unfold str_insert_bytes. mm. Qed.
  Lemma marked_len_on_drop i d : marked (set_len_on_drop i d). Proof. unfold set_len_on_drop. mm. Qed.
  Hint Resolve marked_str_remove marked_insert_bytes marked_len_on_drop : mk8.
  Lemma marked_retain_loop {St} (f : St -> N -> St * option bool) fuel : forall st len i d,
    marked (str_retain_loop f st len i d fuel).
  Proof. induction fuel; intros st len i d; simpl; mm. Qed.
  Hint Resolve marked_retain_loop : mk8.
  Lemma marked_push_chars it : marked (str_push_chars it).
  Proof. induction it as [|[c|] it IH]; simpl; mm. Qed.
  Lemma marked_extend_strs it : marked (str_extend_strs it).
  Proof. induction it as [|[c|] it IH]; simpl; mm. Qed.
  Hint Resolve marked_push_chars marked_extend_strs : mk8.
  Definition single (op : top) : Prop :=
    match op with TExtendStrings _ | TSplitOff _ | TMutVec (OAppend _) => False | _ => True end.
  Lemma marked_texec op : single op -> marked (texec op).
  Proof.
    intros Hc. destruct op; cbn [texec single] in *; try done.
    all: try (unfold str_clear, str_insert, str_insert_str, str_truncate, str_retain, str_index,
      str_map_bytes, str_extend_chars; mm; fail).
    - apply marked_bind; [|mm]. intros [v w]. split; [done|]. exists []. simpl. by rewrite app_nil_r.
    - apply marked_vexec. by destruct op.
  Qed.
  Lemma marked_trun ops : Forall single ops -> forall st, mk_step st (snd (trun ops st)).
  Proof.
    induction 1 as [|op ops H1 H2 IH]; intros st; simpl; [apply mk_refl|].
    pose proof (marked_texec op H1 st) as H. destruct (texec op st) as [[a|p| |u] st']; try done.
    all: specialize (IH st'); destruct (trun ops st') as [os st'']; simpl in *; by eapply mk_trans.
  Qed.
End str_marker.

(** With a non-zero starting capacity a string keeps its marker and selects every allocator with
    it, over all histories without the calls that create further strings. *)
Lemma p_C114_string_partial : forall (EN : Env) (w : world N) c m v0 w0 ops outs v w1,
  c <> 0 ->
  str_try_with_capacity_and_marker c m w = (Ret (Ok v0), w0) \/ str_with_capacity_and_marker c m w = (Ret v0, w0) ->
  Forall (fun op => match op with TExtendStrings _ | TSplitOff _ | TMutVec (OAppend _) => False | _ => True end) ops ->
  trun ops (v0, w0) = (outs, (v, w1)) ->
  vmarker v = m /\
  exists evs, events w1 = events w ++ evs /\
    Forall (fun e => match e with EvSelect _ s => sel_marker s = m | _ => True end) evs.
Proof.
  intros EN w c m v0 w0 ops outs v w1 Hc Hn Hops He.
  assert (vec_try_with_capacity_and_marker (Elem0 := u8) c m w = (Ret (Ok v0), w0)) as Hn'.
  { destruct Hn as [Hn|Hn]; [exact Hn|]. revert Hn.
    unfold str_with_capacity_and_marker, vec_with_capacity_and_marker, bind.
    destruct (vec_try_with_capacity_and_marker c m w) as [[[]|p| |u] w']; simpl; try done. by intros [= <- <-]. }
  destruct (@try_with_capacity_marker EN N u8 c m w _ w0 Hc ltac:(simpl; lia) Hn') as [(e1&He1&Hf1) Hm].
  specialize (Hm v0 eq_refl).
  pose proof (marked_trun ops Hops (v0, w0)) as [H1 (e2&He2&Hf2)]. rewrite He in *. simpl in *.
  split; [congruence|]. exists (e1 ++ e2). split; [by rewrite He2, He1, app_assoc|].
  apply Forall_app. split; [done|]. by rewrite Hm in Hf2.
Qed.
Lemma x_C114_string_ex : exists v0 w0 outs v w1,
  @str_with_capacity_and_marker env_debug 2 (MType 3) w_start = (Ret v0, w0) /\
  @trun env_debug [TPushStr [97; 98; 8364]; TReserve 99; TPush 99; TPop; TPop] (v0, w0) = (outs, (v, w1)) /\
  v_len v = 2 /\ vmarker v = MType 3.
Proof.
  do 5 eexists. split; [vm_compute; reflexivity|]. split; [vm_compute; reflexivity|]. by split; vm_compute.
Qed.
(** Without a starting capacity the marker is forgotten. *)
Lemma p_C114_string_refuted : forall (EN : Env) (w : world N) m v w',
  str_with_marker m w = (Ret v, w') \/ str_with_capacity_and_marker 0 m w = (Ret v, w') \/
  str_try_with_capacity_and_marker 0 m w = (Ret (Ok v), w') ->
  vmarker v = MNone.
Proof.
  intros EN w m v w' H. eapply (p_C26_marker_refuted EN N u8 w m v w'). destruct H as [H|[H|H]]; [by left| |by right].
  right. revert H. unfold str_with_capacity_and_marker, vec_with_capacity_and_marker, bind.
  destruct (vec_try_with_capacity_and_marker 0 m w) as [[[]|p| |u] w1]; simpl; try done. by intros [= <- <-].
Qed.
Lemma x_C114_string_refuted_ex : exists v w',
  @str_with_marker env_debug (MType 3) w_start = (Ret v, w') /\ vmarker v = MNone.
Proof. eexists _, _. split; vm_compute; reflexivity. Qed.
