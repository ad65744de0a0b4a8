(** Proofs of the statements collected in PropertiesPanic3.v: the remaining conversions with
    panicking destructors (C112). *)
From Verif Require Export PanicFacts2.
From Coq Require Import ZifyBool ZifyNat ZifyN.

Section conv.
  Context {EN : Env} {T : Type} {EL : Elem T} (Hz : 0 < t_size).
  Notation W := (world T).

  Lemma into_boxed_slice_gen (w : W) v xs :
    rep w v xs -> xs <> [] ->
    exists r w', vec_into_boxed_slice v w = (r, w') /\
      ((exists b, r = Ret b /\ box_rep w' b xs /\ keeps v w (Vec b (llen xs)) w' [])
       \/ (r = settle drop_panics (Panic PUnwrap) xs /\ refuses /\
           (culprits drop_panics xs = [] -> gone v w w' xs))).
  Proof.
    intros Hr Hne. unfold vec_into_boxed_slice.
    destruct (shrink_to_ok Hz w v xs 0 Hr) as (r&v'&w'&Hm&Hr'&Hk&Hcase).
    { left. destruct xs; [done|]. simpl. lia. }
    rewrite <-(shrink_to_fit_eq w v xs Hr) in Hm. rewrite N.max_0_r in Hcase.
    destruct (rep_cap Hz _ _ _ Hr) as [Hlc _].
    destruct Hcase as [(->&Hcap)|(->&->&Href)].
    - erewrite bind_Ret by (eapply with_local_Ret; exact Hm).
      eexists _, _. split; [reflexivity|]. left. eexists. split; [done|]. simpl.
      assert (v' = Vec (v_ptr v') (llen xs)) as Hv'.
      { destruct v'. f_equal. apply Hr'. }
      rewrite <-Hv'. split; [|done]. split_and!; try done; [|by rewrite <-Hv'].
      rewrite (vcap_pos Hz) in Hcap. lia.
    - destruct (with_local_settle_v Hz v vec_shrink_to_fit w PUnwrap [] v w' xs) as (w2&He&Hg); [by rewrite settle_nil|done|].
      simpl in He, Hg. eexists _, w2. split; [by apply bind_settle_panic|].
      right. split; [done|]. split; [done|]. intros Hq. change xs with ([] ++ xs); by eapply (keeps_gone Hz); [exact Hk|apply Hg].
  Qed.

  Lemma into_vec_gen (Cap : N) (w : W) s xs :
    srep Cap w s xs -> fits (N.max (llen xs) 8) ->
    exists r w', sv_into_vec s w = (r, w') /\
      ((exists v, r = Ret v /\ rep w' v xs /\ vrest v w' = srest s w /\ drops w' = drops w)
       \/ (r = settle drop_panics (Panic PUnwrap) xs /\ refuses /\ (culprits drop_panics xs = [] -> sgone s w w' xs))).
  Proof.
    intros Hr Hf. unfold sv_into_vec.
    assert (exists r s' w', sv_move_to_heap (s, w) = (r, (s', w')) /\ skeeps s w s' w' [] /\
      srep Cap w' s' xs /\
      ((r = Ret tt /\ is_stack s' = false) \/ (r = Panic PUnwrap /\ refuses))) as (r&s'&w'&He&Hk&Hr'&Hcase).
    { destruct s as [[k|v] m].
      - destruct (move_ok Hz Cap w k m xs 0 Hr) as (r&s'&w'&He&Hk&Hr'&Hcase); [by rewrite N.add_0_r|].
        assert (sv_move_to_heap (SVec (Stack k) m, w) = unwrap r (s', w')) as He'
          by (unfold sv_move_to_heap; by erewrite bind_Ret by exact He).
        destruct Hcase as [(->&v&Hv&_)|(->&->&Hrf)].
        + eexists _, s', w'. split; [exact He'|]. split; [done|]. split; [done|]. left.
          unfold is_stack. by rewrite Hv.
        + eexists _, _, w'. split; [exact He'|]. split; [done|]. split; [done|]. by right.
      - pose proof Hr as [Hw Hr0]. simpl in Hr0.
        destruct (reserve_exact_ok Hz w v xs 0 Hr0) as (r&v'&w'&He&Hk&Hr'&Hc).
        { eapply (fits_le Hz); [|exact Hf]. lia. }
        pose proof (rep_cap Hz _ _ _ Hr0) as [Hlc _].
        destruct Hc as [(->&_&_&Hs&_)|(_&_&?&_)]; [|lia].
        destruct Hs as [-> ->]; [lia|].
        eexists (Ret tt), _, w. split.
        { unfold sv_move_to_heap, sv_try_move_to_heap_and_reserve_exact.
          rewrite !bind_assoc, bind_get_fst. cbn [sv_store]. rewrite !bind_assoc.
          erewrite bind_Ret by (apply on_heap_eq; exact He). reflexivity. }
        split; [by apply skeeps_refl|]. split; [done|]. by left. }
    destruct Hcase as [(->&Hs)|(->&Hrf)].
    - erewrite bind_Ret by (eapply with_local_Ret_s; exact He). cbn [snd].
      destruct s' as [[k|v] m]; [done|]. eexists _, _. split; [reflexivity|]. left.
      exists v. split; [done|]. destruct Hr' as [_ Hr']. simpl in Hr'. split; [done|].
      destruct Hk as (H1&H2&_). split; [exact H1|]. by rewrite H2, app_nil_r.
    - destruct (with_local_settle Hz Cap s sv_move_to_heap w PUnwrap [] s' w' xs) as (w2&He2&Hg); [by rewrite settle_nil|done|].
      simpl in He2, Hg. eexists _, w2. split; [by apply bind_settle_panic|].
      right. split; [done|]. split; [done|]. intros Hq. specialize (Hg Hq).
      destruct Hk as (H1&H2&H3&H4), Hg as (G1&G2&G3&G4&G5). rewrite app_nil_r in H2.
      split; [by rewrite G1|]. split; [by rewrite G2, H2|]. split; [by rewrite G3|]. split; [lia|done].
  Qed.
End conv.

(** * C112 *)

(** [SmallVec::from] of an array that does not fit inline (the others are lost, C37). *)
Lemma p_C112_small_from_array : forall (EN : Env) (T : Type) (EL : Elem T) (Cap : N) (w : world T) l,
  0 < t_size -> wok w -> llen l * t_size <= isize_max + 1 - t_align -> Cap < llen l ->
  let panics x := t_needs_drop && t_drop_panics x in
  exists r w', sv_from_array Cap l w = (r, w') /\
    ((exists s, r = Ret s /\ sv_slice s w' = (Ret l, w') /\ srest s w' = heap w /\ drops w' = drops w) \/
     (r = settle panics (Panic PUnwrap) l /\ refuses /\
        (r <> Abort -> heap w' = heap w /\ drops w' = drops w ++ l))).
Proof.
  intros EN T EL Cap w l Hz Hw Hf Hl. cbv zeta.
  change (fun x : T => t_needs_drop && t_drop_panics x) with (@drop_panics T EL).
  unfold sv_from_array. rewrite (proj2 (N.leb_gt _ _)) by done.
  destruct (from_array_gen Hz w l Hw Hf) as (r&w'&He&[(v&->&Hr&(Hh&Hd&_)&Hc)|(->&Hs&?)]).
  - eexists _, w'. split; [by erewrite bind_Ret by exact He|]. left. eexists. split; [done|].
    rewrite app_nil_r in Hd. split; [|done]. apply (slice_sok Cap Hz). split; [|done].
    destruct Hr as [_ [rest Ho]]. by destruct Ho.
  - eexists _, w'. split; [by apply bind_settle_panic|]. right. split; [done|]. split; [done|].
    intros Hna. by destruct (Hs (settle_panic_abort _ _ Hna)) as (?&?&_).
Qed.
(** [into_boxed_slice] of a vector with elements. *)
Lemma p_C112_into_boxed_slice : forall (EN : Env) (T : Type) (EL : Elem T) v (w : world T) xs,
  0 < t_size -> reached v w xs -> xs <> [] ->
  let panics x := t_needs_drop && t_drop_panics x in
  exists r w', vec_into_boxed_slice v w = (r, w') /\
    ((exists b, r = Ret b /\ vec_as_slice (vec_from_box b) w' = (Ret xs, w') /\ drops w' = drops w /\
        delete_ptr (sp_ptr b) (heap w') = delete_ptr (vdata v) (heap w)) \/
     (r = settle panics (Panic PUnwrap) xs /\ refuses /\
        (r <> Abort -> heap w' = delete_ptr (vdata v) (heap w) /\ drops w' = drops w ++ xs))).
Proof.
  intros EN T EL v w xs Hz Hre Hne. cbv zeta.
  change (fun x : T => t_needs_drop && t_drop_panics x) with (@drop_panics T EL).
  destruct (into_boxed_slice_gen Hz w v xs (reached_rep Hz _ _ _ Hre) Hne) as (r&w'&He&Hcase).
  exists r, w'. split; [done|]. destruct Hcase as [(b&->&Hb&(Hk1&Hk2&_))|(->&Hrf&Hg)].
  - left. exists b. split; [done|]. split; [by apply (as_slice_ok Hz), box_into_vec_ok|].
    rewrite app_nil_r in Hk2. split; [done|]. exact Hk1.
  - right. split; [done|]. split; [done|]. intros Hna. rewrite settle_panic in Hna.
    destruct (culprits drop_panics xs); [|done]. by destruct (Hg eq_refl) as (?&?&_).
Qed.
(** [SmallVec::into_vec], from inline or heap. *)
Lemma p_C112_small_into_vec : forall (EN : Env) (T : Type) (EL : Elem T) (Cap : N) s (w : world T) xs,
  0 < t_size -> sreached Cap s w xs -> N.max (llen xs) 8 * t_size <= isize_max + 1 - t_align ->
  let panics x := t_needs_drop && t_drop_panics x in
  exists r w', sv_into_vec s w = (r, w') /\
    ((exists v, r = Ret v /\ vec_as_slice v w' = (Ret xs, w') /\ drops w' = drops w /\
        delete_ptr (vdata v) (heap w') = srest s w) \/
     (r = settle panics (Panic PUnwrap) xs /\ refuses /\
        (r <> Abort -> heap w' = srest s w /\ drops w' = drops w ++ xs))).
Proof.
  intros EN T EL Cap s w xs Hz Hr Hf. cbv zeta.
  change (fun x : T => t_needs_drop && t_drop_panics x) with (@drop_panics T EL). sreach Hr.
  destruct (into_vec_gen Hz Cap w s xs Hr Hf) as (r&w'&He&Hcase). exists r, w'. split; [done|].
  destruct Hcase as [(v&->&Hv&Hh&Hd)|(->&Hrf&Hg)].
  - left. exists v. split; [done|]. split; [by apply (as_slice_ok Hz)|]. done.
  - right. split; [done|]. split; [done|]. intros Hna. rewrite settle_panic in Hna.
    destruct (culprits drop_panics xs); [|done]. by destruct (Hg eq_refl) as (?&?&_).
Qed.
(** [SmallVec::into_boxed_slice] of a vector with elements: both steps may be refused. *)
Lemma p_C112_small_into_boxed_slice : forall (EN : Env) (T : Type) (EL : Elem T) (Cap : N) s (w : world T) xs,
  0 < t_size -> sreached Cap s w xs -> xs <> [] -> N.max (llen xs) 8 * t_size <= isize_max + 1 - t_align ->
  let panics x := t_needs_drop && t_drop_panics x in
  exists r w', sv_into_boxed_slice s w = (r, w') /\
    ((exists b, r = Ret b /\ vec_as_slice (vec_from_box b) w' = (Ret xs, w') /\ drops w' = drops w /\
        delete_ptr (sp_ptr b) (heap w') = srest s w) \/
     (r = settle panics (Panic PUnwrap) xs /\ refuses /\
        (r <> Abort -> heap w' = srest s w /\ drops w' = drops w ++ xs))).
Proof.
  intros EN T EL Cap s w xs Hz Hr Hne Hf. cbv zeta.
  change (fun x : T => t_needs_drop && t_drop_panics x) with (@drop_panics T EL). sreach Hr.
  destruct (into_vec_gen Hz Cap w s xs Hr Hf) as (r&w1&He&Hcase). unfold sv_into_boxed_slice.
  destruct Hcase as [(v&->&Hv&Hh&Hd)|(->&Hrf&Hg)].
  2: { eexists _, w1. split; [by apply bind_settle_panic|]. right. split; [done|]. split; [done|].
       intros Hna. rewrite settle_panic in Hna.
       destruct (culprits drop_panics xs); [|done]. by destruct (Hg eq_refl) as (?&?&_). }
  destruct (into_boxed_slice_gen Hz w1 v xs Hv Hne) as (r&w'&He'&Hcase).
  exists r, w'. split; [by erewrite bind_Ret by exact He|]. destruct Hcase as [(b&->&Hb&(Hk1&Hk2&_))|(->&Hrf&Hg)].
  - left. exists b. split; [done|]. split; [by apply (as_slice_ok Hz), box_into_vec_ok|].
    rewrite app_nil_r in Hk2. split; [by rewrite Hk2|]. rewrite <-Hh. exact Hk1.
  - right. split; [done|]. split; [done|]. intros Hna. rewrite settle_panic in Hna.
    destruct (culprits drop_panics xs); [|done]. destruct (Hg eq_refl) as (G1&G2&_).
    split; [by rewrite G1|]. by rewrite G2, Hd.
Qed.
(** A refused request while an element whose destructor panics is inside ends the process; without
    such an element it is an ordinary panic. *)
Lemma x_C112_into_ex :
  let st := @sdemo (env_refusing 0) N num_bomb 4 w_start (SPush <$> bombs) in
  let ok := @sdemo (env_refusing 0) N num_bomb 4 w_start [SPush 5] in
  @sreached (env_refusing 0) N num_bomb 4 (fst st) (snd st) bombs /\
  fst (@sv_into_vec (env_refusing 0) N num_bomb (fst st) (snd st)) = Abort /\
  @sreached (env_refusing 0) N num_bomb 4 (fst ok) (snd ok) [5] /\
  fst (@sv_into_vec (env_refusing 0) N num_bomb (fst ok) (snd ok)) = Panic PUnwrap /\
  fst (@sv_from_array (env_refusing 0) N num_bomb 1 [5; 13] w_start) = Abort /\
  fst (@sv_from_array (env_refusing 0) N num_bomb 1 [5; 6] w_start) = Panic PUnwrap /\
  @reached env_debug N num_bomb (fst bomb_st) (snd bomb_st) bombs /\
  exists b w', @vec_into_boxed_slice env_debug N num_bomb (fst bomb_st) (snd bomb_st) = (Ret b, w') /\
    sp_len b = llen bombs.
Proof.
  split; [by apply sdemo_reached; [apply w_start_ok|..]; vm_compute|]. split; [by vm_compute|].
  split; [by apply sdemo_reached; [apply w_start_ok|..]; vm_compute|]. split; [by vm_compute|].
  split; [by vm_compute|]. split; [by vm_compute|]. split; [apply x_C28_ex|].
  eexists _, _. split; vm_compute; reflexivity.
Qed.
