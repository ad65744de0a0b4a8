(** Proofs of the statements on [Urc], third part: [try_unwrap], [make_mut], [get_mut]. *)
From Verif Require Export UrcFacts2.
From Coq Require Import ZifyBool ZifyNat ZifyN.

(** Executing a call of handle [i] step by step. *)
Ltac at_i Hi := simpl; rewrite ?list_insert_insert, ?list_lookup_insert by (by eapply lookup_lt_Some).

(** *** C66 *)
(** When the exchange succeeds and the value is taken, there is no other [Urc]. *)
Lemma p_C66_only_partial : forall (PR : Profile) (T : Type) (x : T) ls c,
  urc_reached x ls c -> happened is_zeroing c = 0 ->
  forall i f b c', u_hs c !! i = Some (UH f UCas) -> ustep (LStep i b) c = Some c' ->
  u_hs c' !! i = Some (UH f UTake) -> only_urc i c.
Proof.
  intros PR T x ls c Hr Hz i f b c' Hi Hst Ht. destruct (reached_inv _ _ _ Hr Hz) as (n&HI&_).
  destruct (counted_open _ _ _ _ HI Hi eq_refl) as (y&Hy&Fy). simpl in Hy.
  destruct (open_ok _ _ _ _ HI Hy Fy) as (O1&O2&_).
  simpl in Hst. rewrite Hi in Hst. unfold step in Hst. simpl in Hst.
  rewrite (with_fence_ok _ _ _ _ Hy Fy), (inv_mem _ _ HI) in Hst. injection Hst as <-.
  assert (Hl : (i < length (u_hs c))%nat) by (by eapply lookup_lt_Some).
  destruct (u_sf c =? 1) eqn:E1; simpl in Ht.
  - destruct (f_strong y =? 1) eqn:E2; simpl in Ht; rewrite list_lookup_insert in Ht by done; [|done].
    intros j h Hne Hj. destruct (is_urc (u_pc h)) eqn:Eu; [|done]. exfalso.
    destruct (i_h _ _ HI _ _ Hj) as [_ Hzp]. pose proof (is_urc_sc _ Hzp Eu) as Hsc.
    assert (Hsf : u_sf c = 1) by (clear -E1; lia).
    pose proof (sole_fence _ _ _ _ _ _ HI Hsf Hi eq_refl Hj) as Hf. rewrite Hsc in Hf. specialize (Hf eq_refl).
    pose proof (count_two f sc c i j _ _ (not_eq_sym Hne) Hi Hj eq_refl Hf eq_refl Hsc) as H2. clear -H2 O1 E2. lia.
  - rewrite list_lookup_insert in Ht by done. done.
Qed.

Lemma x_C66_only_ex : forall (PR : Profile), exists c c',
  urc_reached 5 (s_env 0 ++ [LCall 0 CDowngrade] ++ s_drop 1 2 ++ [LBegin 0 CUnwrap]) c /\ happened is_zeroing c = 0 /\
  u_hs c !! 0%nat = Some (UH 0 UCas) /\ ustep (LStep 0 false) c = Some c' /\ u_hs c' !! 0%nat = Some (UH 0 UTake).
Proof. intros PR. do 2 eexists. split; [split; [done|vm_compute; reflexivity]|]. do 2 (split; [done|]). split; [reflexivity|done]. Qed.

(** A [Urc] of another thread: the handle is given back, nothing has changed. *)
Lemma p_C66_refused_partial : forall (PR : Profile) (T : Type) (x : T) ls c,
  urc_reached x ls c -> happened is_zeroing c = 0 ->
  forall i f j g p b, u_hs c !! i = Some (UH f UHeld) -> idle f c = true ->
  u_hs c !! j = Some (UH g p) -> is_urc p = true -> g <> f ->
  urun [LBegin i CUnwrap; LStep i b] c = Some (say UUnwrapErr c).
Proof.
  intros PR T x ls c Hr Hz i f j g p b Hi Hid Hj Hu Hne. destruct (reached_inv _ _ _ Hr Hz) as (n&HI&_).
  destruct (counted_open _ _ _ _ HI Hi eq_refl) as (y&Hy&Fy). simpl in Hy.
  destruct (i_h _ _ HI _ _ Hj) as [_ Hzp]. pose proof (is_urc_sc _ Hzp Hu) as Hsc. simpl in Hsc.
  assert (Hsf : (u_sf c =? 1) = false).
  { apply N.eqb_neq. intros H1. apply Hne.
    apply (sole_fence _ _ _ _ _ _ HI H1 Hi eq_refl Hj). simpl. by rewrite Hsc. }
  assert (Hl : (i < length (u_hs c))%nat) by (by eapply lookup_lt_Some).
  assert (Hme : mem_ok (goto i (UH f UHeld) UCas c) = true) by (exact (inv_mem _ _ HI)).
  change (urun [LBegin i CUnwrap; LStep i b] c) with
    (match ustep (LBegin i CUnwrap) c with Some c' => urun [LStep i b] c' | None => None end).
  rewrite (begin_step _ _ _ _ Hi Hid). simpl. rewrite list_lookup_insert by done. unfold step. simpl.
  rewrite (with_fence_ok f y); [|done|done].
  rewrite Hme. simpl. rewrite Hsf. unfold say, goto, set_hs. simpl.
  rewrite list_insert_insert, list_insert_id by done. by destruct c.
Qed.

Lemma x_C66_refused_ex : forall (PR : Profile), exists c,
  urc_reached 5 (s_env 0 ++ [LCall 0 CClone]) c /\ happened is_zeroing c = 0 /\
  u_hs c !! 0%nat = Some (UH 0 UHeld) /\ idle 0 c = true /\ u_hs c !! 1%nat = Some (UH 1 UHeld).
Proof. intros PR. eexists. split; [split; [done|vm_compute; reflexivity]|]. done. Qed.

(** The only handle but for [Weak]s of its own fence gets the value. *)
Lemma p_C66_taken_partial : forall (PR : Profile) (T : Type) (x : T) ls c,
  urc_reached x ls c -> happened is_zeroing c = 0 ->
  happened is_env_fail c = 0 -> happened is_fence_dropped c = 0 ->
  forall i f k b b', u_hs c !! i = Some (UH f UHeld) -> idle f c = true ->
  u_hs c !! k = Some (UH f WHeld) ->
  (forall j h, j <> i -> u_hs c !! j = Some h -> u_pc h = UGone \/ h = UH f WHeld) ->
  exists c', urun [LBegin i CUnwrap; LStep i b; LStep i b'] c = Some c' /\
    u_log c' = u_log c ++ [UCasOk; UTook (u_val c)] /\ u_data c' = UMoved /\ u_hs c' = <[i := UH f UGone]> (u_hs c).
Proof.
  intros PR T x ls c Hr Hz HA1 HA2 i f k b b' Hi Hid Hk Hoth. destruct (reached_inv _ _ _ Hr Hz) as (n&HI&_).
  destruct (counted_open _ _ _ _ HI Hi eq_refl) as (y&Hy&Fy). simpl in Hy.
  destruct (open_ok _ _ _ _ HI Hy Fy) as (O1&O2&_).
  assert (Hl : (i < length (u_hs c))%nat) by (by eapply lookup_lt_Some).
  assert (Hsf : u_sf c = 1).
  { rewrite (i_sf _ _ HI), (A_zero _ HA1 HA2), (cnt_only open _ _ _ Hy).
    - unfold open. rewrite Fy. simpl. rewrite (cnt_none (fun h => pend (u_pc h))); [done|].
      intros j h Hj. destruct (decide (j = i)) as [->|Hne]; [assert (h = UH f UHeld) as -> by congruence; done|].
      destruct (Hoth _ _ Hne Hj) as [-> | ->]; done.
    - intros g w Hne Hw. unfold open. destruct (f_freed w) eqn:E; [done|]. exfalso.
      destruct (open_counted _ _ _ _ HI Hw E) as (j&h&Hj&Hf&Hq).
      destruct (decide (j = i)) as [->|Hji].
      + assert (h = UH f UHeld) as -> by congruence. simpl in Hf. congruence.
      + destruct (Hoth _ _ Hji Hj) as [Hg|Hg]; [by rewrite Hg in Hq|]. rewrite Hg in Hf. simpl in Hf. congruence. }
  assert (Hs1 : f_strong y = 1).
  { rewrite O1. unfold count. rewrite (cnt_only _ _ _ _ Hi).
    - rewrite onf_self. done.
    - intros j h Hne Hj. unfold onf. destruct (Hoth _ _ Hne Hj) as [-> | ->]; apply andb_false_r. }
  assert (Hw1 : (f_weak y =? 0) = false).
  { apply N.eqb_neq. pose proof (count_in f wc c k _ Hk eq_refl eq_refl) as H. clear -H O2. lia. }
  change (urun [LBegin i CUnwrap; LStep i b; LStep i b'] c) with
    (match ustep (LBegin i CUnwrap) c with Some c' => urun [LStep i b; LStep i b'] c' | None => None end).
  rewrite (begin_step _ _ _ _ Hi Hid). simpl. rewrite list_lookup_insert by done. unfold step at 1. simpl.
  rewrite (with_fence_ok f y); [|done|done].
  assert (Hme : mem_ok (goto i (UH f UHeld) UCas c) = true) by (exact (inv_mem _ _ HI)).
  rewrite Hme. simpl. rewrite Hsf, Hs1. simpl. rewrite !list_insert_insert, list_lookup_insert by done.
  unfold step. simpl. rewrite (with_fence_ok f y); [|done|done].
  unfold val_ok. simpl. rewrite (i_mf _ _ HI), (i_data _ _ HI). simpl. rewrite Hw1.
  eexists. split; [done|]. simpl. rewrite !list_insert_insert. rewrite <- app_assoc. done.
Qed.

Lemma x_C66_taken_ex : forall (PR : Profile), exists c,
  urc_reached 5 (s_env 0 ++ [LCall 0 CDowngrade] ++ s_drop 1 2) c /\ happened is_zeroing c = 0 /\
  happened is_env_fail c = 0 /\ happened is_fence_dropped c = 0 /\ idle 0 c = true /\
  u_hs c = [UH 0 UHeld; UH 1 UGone; UH 0 WHeld].
Proof. intros PR. eexists. split; [split; [done|vm_compute; reflexivity]|]. done. Qed.

(** The only handle, without [Weak]s: the memory of the fence is freed and then read. *)
Lemma p_C66_freed_refuted : forall (PR : Profile) (T : Type) (x : T) ls c,
  urc_reached x ls c -> happened is_zeroing c = 0 ->
  happened is_env_fail c = 0 -> happened is_fence_dropped c = 0 ->
  forall i f, u_hs c !! i = Some (UH f UHeld) -> only_handle i c -> idle f c = true ->
  exists c', urun (LBegin i CUnwrap :: s_steps i 3) c = Some c' /\
    u_log c' = u_log c ++ [UCasOk; UTook (u_val c); UFreeFence f; UBad].
Proof.
  intros PR T x ls c Hr Hz HA1 HA2 i f Hi Hon Hid. destruct (reached_inv _ _ _ Hr Hz) as (n&HI&_).
  destruct (counted_open _ _ _ _ HI Hi eq_refl) as (y&Hy&Fy). simpl in Hy.
  destruct (open_ok _ _ _ _ HI Hy Fy) as (O1&O2&_).
  destruct (only_state _ _ _ _ HI Hon Hi eq_refl eq_refl (A_zero _ HA1 HA2)) as (Hsf&Hs&Hw&_). simpl in Hs, Hw.
  assert (Hl : (i < length (u_hs c))%nat) by (by eapply lookup_lt_Some).
  assert (Hlf : (f < length (u_fences c))%nat) by (by eapply lookup_lt_Some).
  change (urun (LBegin i CUnwrap :: s_steps i 3) c) with
    (match ustep (LBegin i CUnwrap) c with Some c' => urun (s_steps i 3) c' | None => None end).
  rewrite (begin_step _ _ _ _ Hi Hid). simpl. rewrite list_lookup_insert by done. unfold step at 1. simpl.
  rewrite (with_fence_ok f y); [|done|done].
  assert (Hme : mem_ok (goto i (UH f UHeld) UCas c) = true) by (exact (inv_mem _ _ HI)).
  rewrite Hme. simpl. rewrite Hsf, O1, Hs. simpl. rewrite !list_insert_insert, list_lookup_insert by done.
  unfold step at 1. simpl. rewrite (with_fence_ok f y); [|done|done].
  unfold val_ok. simpl. rewrite (i_mf _ _ HI), (i_data _ _ HI). simpl. rewrite O2, Hw. simpl.
  rewrite !list_insert_insert, list_lookup_insert by done.
  unfold step, with_fence. simpl. rewrite list_lookup_insert by done. simpl.
  eexists. split; [done|]. simpl. by rewrite <- !app_assoc.
Qed.

Lemma x_C66_freed_ex : forall (PR : Profile), exists c,
  urc_reached 5 (s_env 0 ++ s_drop 1 2) c /\ happened is_zeroing c = 0 /\
  happened is_env_fail c = 0 /\ happened is_fence_dropped c = 0 /\ idle 0 c = true /\
  u_hs c = [UH 0 UHeld; UH 1 UGone].
Proof. intros PR. eexists. split; [split; [done|vm_compute; reflexivity]|]. done. Qed.

(** With a second [Urc] on the same fence the call fails but the counter of strong fences is left at zero;
    a [Urc] sent to another thread then gets the value although there are three. *)
Lemma p_C66_counter_refuted : forall (PR : Profile), exists c c',
  urc_reached 5 [LCall 0 CClone; LBegin 0 CUnwrap; LStep 0 false] c /\
  u_hs c = [UH 0 UHeld; UH 0 UHeld] /\ u_log c = [UCasOk; UUnwrapErr] /\ u_sf c = 0 /\
  urun (s_env 0 ++ [LBegin 2 CUnwrap; LStep 2 false; LStep 2 false; LCall 0 CRead]) c = Some c' /\
  u_log c' = [UCasOk; UUnwrapErr; UCasOk; UTook 5; UFreeFence 1; UBad].
Proof.
  intros PR. do 2 eexists. split; [split; [done|vm_compute; reflexivity]|]. do 3 (split; [done|]).
  split; [vm_compute; reflexivity|done].
Qed.

(** *** C67 *)
(** With a [Urc] in another thread the value is copied; nothing else changes until the old [Urc] is dropped. *)
Lemma p_C67_copy_partial : forall (PR : Profile) (T : Type) (x : T) ls c,
  urc_reached x ls c -> happened is_zeroing c = 0 ->
  forall i f j g p b, u_hs c !! i = Some (UH f UHeld) -> idle f c = true ->
  u_hs c !! j = Some (UH g p) -> is_urc p = true -> g <> f ->
  urun [LBegin i CMakeMut; LStep i b; LStep i false; LStep i false] c =
    Some (say (UCopied (last_written x ls)) (goto i (UH f UHeld) UDrop c)).
Proof.
  intros PR T x ls c Hr Hz i f j g p b Hi Hid Hj Hu Hne. destruct (reached_inv _ _ _ Hr Hz) as (n&HI&_).
  destruct (counted_open _ _ _ _ HI Hi eq_refl) as (y&Hy&Fy). simpl in Hy.
  destruct (i_h _ _ HI _ _ Hj) as [_ Hzp]. pose proof (is_urc_sc _ Hzp Hu) as Hsc. simpl in Hsc.
  assert (Hsf : (u_sf c =? 1) = false).
  { apply N.eqb_neq. intros H1. apply Hne.
    apply (sole_fence _ _ _ _ _ _ HI H1 Hi eq_refl Hj). simpl. by rewrite Hsc. }
  assert (Hl : (i < length (u_hs c))%nat) by (by eapply lookup_lt_Some).
  destruct Hr as [_ Hr]. pose proof (val_run _ _ _ Hr) as Hv. rewrite (i_bad _ _ HI) in Hv. specialize (Hv eq_refl).
  simpl in Hv. rewrite <- Hv. clear Hv.
  change (urun [LBegin i CMakeMut; LStep i b; LStep i false; LStep i false] c) with
    (match ustep (LBegin i CMakeMut) c with Some c' => urun [LStep i b; LStep i false; LStep i false] c' | None => None end).
  rewrite (begin_step _ _ _ _ Hi Hid). simpl. rewrite list_lookup_insert by done. unfold step at 1. simpl.
  rewrite (with_fence_ok f y); [|done|done].
  assert (Hme : mem_ok (goto i (UH f UHeld) UM0 c) = true) by (exact (inv_mem _ _ HI)).
  rewrite Hme. simpl. rewrite Hsf. simpl. rewrite !list_insert_insert, list_lookup_insert by done.
  unfold step at 1. simpl.
  match goal with |- context [idle f ?c1] => assert (Hid1 : idle f c1 = true) end.
  { apply idle_count. apply idle_count in Hid. rewrite <- Hid. unfold count. simpl.
    pose proof (cnt_insert (onf f busy) _ _ _ (UH f UMClone) Hi) as H. rewrite !onf_self in H. simpl in H.
    rewrite ?list_insert_insert. clear -H. lia. }
  rewrite Hid1. unfold val_ok. simpl. rewrite !(i_mf _ _ HI), !(i_data _ _ HI). simpl.
  rewrite !list_insert_insert, list_lookup_insert by done. unfold step. simpl.
  unfold say, goto, set_hs. simpl. by rewrite !list_insert_insert.
Qed.

Lemma x_C67_copy_ex : forall (PR : Profile), exists c,
  urc_reached 5 (s_env 0 ++ [LCall 0 CClone]) c /\ happened is_zeroing c = 0 /\
  u_hs c !! 0%nat = Some (UH 0 UHeld) /\ idle 0 c = true /\ u_hs c !! 1%nat = Some (UH 1 UHeld).
Proof. intros PR. eexists. split; [split; [done|vm_compute; reflexivity]|]. done. Qed.

(** Release build, only handle: the value is moved into a new [Urc]; no memory is misused. *)
Lemma p_C67_move_partial : forall (PR : Profile) (T : Type) (x : T) ls c,
  e_checks = false ->
  urc_reached x ls c -> happened is_zeroing c = 0 ->
  happened is_env_fail c = 0 -> happened is_fence_dropped c = 0 ->
  forall i f, u_hs c !! i = Some (UH f UHeld) -> only_handle i c -> idle f c = true ->
  exists c', urun (LBegin i CMakeMut :: s_steps i 8) c = Some c' /\
    u_log c' = u_log c ++ [UMoving; UMovedOut (last_written x ls)] /\ u_hs c' = <[i := UH f UGone]> (u_hs c).
Proof.
  intros PR T x ls c Hck Hr Hz HA1 HA2 i f Hi Hon Hid. destruct (reached_inv _ _ _ Hr Hz) as (n&HI&_).
  destruct (counted_open _ _ _ _ HI Hi eq_refl) as (y&Hy&Fy). simpl in Hy.
  destruct (open_ok _ _ _ _ HI Hy Fy) as (O1&O2&_).
  destruct (only_state _ _ _ _ HI Hon Hi eq_refl eq_refl (A_zero _ HA1 HA2)) as (Hsf&Hs&Hw&_). simpl in Hs, Hw.
  assert (Hl : (i < length (u_hs c))%nat) by (by eapply lookup_lt_Some).
  assert (Hlf : (f < length (u_fences c))%nat) by (by eapply lookup_lt_Some).
  destruct Hr as [_ Hr]. pose proof (val_run _ _ _ Hr) as Hv. rewrite (i_bad _ _ HI) in Hv. specialize (Hv eq_refl).
  simpl in Hv. rewrite <- Hv. clear Hv.
  destruct y as [ys yw yf]. simpl in *. subst ys yw yf. rewrite Hs, Hw in *. clear Hs Hw Hon Hr.
  pose proof (i_mf _ _ HI) as Hm. pose proof (i_data _ _ HI) as Hd. clear HI Hz HA1 HA2.
  destruct c as [sf wf v d mf fs hs lg]. simpl in *. subst.
  rewrite Hi, Hid. simpl.
  repeat (rewrite ?list_insert_insert, list_lookup_insert by (rewrite ?insert_length; done); unfold step at 1; simpl;
    unfold with_fence; simpl;
    rewrite ?list_insert_insert; first [rewrite Hy|rewrite list_lookup_insert by done|idtac]; simpl; unfold dec_weak, dec_strong; simpl; rewrite ?Hck, ?N.eqb_refl; simpl).
  unfold step, with_fence, dec_strong. simpl. rewrite ?list_insert_insert, ?list_lookup_insert by done. simpl. rewrite ?Hck.
  eexists. split; [done|]. simpl. rewrite ?list_insert_insert, <- ?app_assoc. done.
Qed.

Lemma x_C67_move_ex : exists c,
  @urc_reached N {| e_checks := false; e_strict := false |} 5 (s_env 0 ++ s_drop 1 2) c /\ happened is_zeroing c = 0 /\
  happened is_env_fail c = 0 /\ happened is_fence_dropped c = 0 /\ idle 0 c = true /\
  u_hs c = [UH 0 UHeld; UH 1 UGone].
Proof. eexists. split; [split; [done|vm_compute; reflexivity]|]. done. Qed.

(** Debug build, only handle: always a panic. *)
Lemma p_C67_panic_refuted : forall (PR : Profile) (T : Type) (x : T) ls c,
  e_checks = true ->
  urc_reached x ls c -> happened is_zeroing c = 0 ->
  happened is_env_fail c = 0 -> happened is_fence_dropped c = 0 ->
  forall i f, u_hs c !! i = Some (UH f UHeld) -> only_handle i c -> idle f c = true ->
  exists k c', urun (LBegin i CMakeMut :: s_steps i k) c = Some c' /\ u_log c' = u_log c ++ [UMoving; UPanic].
Proof.
  intros PR T x ls c Hck Hr Hz HA1 HA2 i f Hi Hon Hid. destruct (reached_inv _ _ _ Hr Hz) as (n&HI&_).
  destruct (counted_open _ _ _ _ HI Hi eq_refl) as (y&Hy&Fy). simpl in Hy.
  destruct (open_ok _ _ _ _ HI Hy Fy) as (O1&O2&_).
  destruct (only_state _ _ _ _ HI Hon Hi eq_refl eq_refl (A_zero _ HA1 HA2)) as (Hsf&Hs&Hw&_). simpl in Hs, Hw.
  assert (Hl : (i < length (u_hs c))%nat) by (by eapply lookup_lt_Some).
  assert (Hlf : (f < length (u_fences c))%nat) by (by eapply lookup_lt_Some).
  destruct y as [ys yw yf]. simpl in *. subst ys yw yf. rewrite Hs, Hw in *. clear Hs Hw Hon Hr.
  pose proof (i_mf _ _ HI) as Hm. pose proof (i_data _ _ HI) as Hd. clear HI Hz HA1 HA2.
  destruct c as [sf wf v d mf fs hs lg]. simpl in *. subst.
  destruct (wf =? usize_max) eqn:Ewf; [exists 3%nat|exists 4%nat].
  all: rewrite Hi, Hid; simpl.
  all: repeat (rewrite ?list_insert_insert, list_lookup_insert by (rewrite ?insert_length; done); unfold step at 1; simpl;
    unfold with_fence; simpl;
    rewrite ?list_insert_insert; first [rewrite Hy|rewrite list_lookup_insert by done|idtac]; simpl; unfold dec_weak, dec_strong; simpl;
      rewrite ?Hck, ?N.eqb_refl, ?Ewf; simpl).
  all: eexists; split; [done|]; simpl; by rewrite <- ?app_assoc.
Qed.

Lemma x_C67_panic_ex : exists c c',
  @urc_reached N {| e_checks := true; e_strict := false |} 5 (s_env 0 ++ s_drop 1 2) c /\ happened is_zeroing c = 0 /\
  happened is_env_fail c = 0 /\ happened is_fence_dropped c = 0 /\ idle 0 c = true /\
  u_hs c = [UH 0 UHeld; UH 1 UGone] /\
  @urun {| e_checks := true; e_strict := false |} N (LBegin 0 CMakeMut :: s_steps 0 4) c = Some c' /\
  u_log c' = [UFreeFence 1; UMoving; UPanic].
Proof.
  do 2 eexists. split; [split; [done|vm_compute; reflexivity]|]. do 5 (split; [done|]). split; [vm_compute; reflexivity|done].
Qed.

(** Release build, a second [Urc] on the same fence: the value is moved away from under it. *)
Lemma p_C67_steal_refuted : exists c,
  @urc_reached N {| e_checks := false; e_strict := false |} 5
    ([LCall 0 CClone; LBegin 0 CMakeMut] ++ s_steps 0 8 ++ [LCall 1 CRead]) c /\
  u_hs c = [UH 0 UGone; UH 0 UHeld] /\ u_log c = [UMoving; UMovedOut 5; UBad].
Proof. eexists. split; [split; [done|vm_compute; reflexivity]|]. done. Qed.

(** *** C68 *)
(** While a mutable reference is out there is no other handle. *)
Lemma p_C68_exclusive_partial : forall (PR : Profile) (T : Type) (x : T) ls c,
  urc_reached x ls c -> happened is_zeroing c = 0 ->
  forall i f, u_hs c !! i = Some (UH f UMut) -> only_handle i c.
Proof.
  intros PR T x ls c Hr Hz i f Hi. destruct (reached_inv _ _ _ Hr Hz) as (n&HI&_).
  destruct (i_in _ _ HI _ _ Hi eq_refl) as [H1 H2].
  by eapply (state_only _ _ _ _ HI Hi eq_refl (i_sole _ _ HI _ _ Hi eq_refl)).
Qed.

Lemma x_C68_exclusive_ex : forall (PR : Profile), exists c,
  urc_reached 5 (s_env 0 ++ s_drop 1 2 ++ [LBegin 0 CGetMut] ++ s_steps 0 3) c /\ happened is_zeroing c = 0 /\
  u_hs c = [UH 0 UMut; UH 1 UGone].
Proof. intros PR. eexists. split; [split; [done|vm_compute; reflexivity]|]. done. Qed.

(** If the counter [weak_fence] is zero, [get_mut] gives a reference exactly when there is no other handle. *)
Lemma p_C68_exact_partial : forall (PR : Profile) (T : Type) (x : T) ls c,
  urc_reached x ls c -> happened is_zeroing c = 0 ->
  happened is_env_fail c = 0 -> happened is_fence_dropped c = 0 ->
  forall i f, u_hs c !! i = Some (UH f UHeld) -> idle f c = true -> u_wf c = 0 ->
  exists k c' b, urun (LBegin i CGetMut :: s_steps i k) c = Some c' /\ u_log c' = u_log c ++ [UGetMut b] /\
    u_hs c' = <[i := UH f (if b then UMut else UHeld)]> (u_hs c) /\ (b = true <-> only_handle i c).
Proof.
  intros PR T x ls c Hr Hz HA1 HA2 i f Hi Hid Hwf. destruct (reached_inv _ _ _ Hr Hz) as (n&HI&_).
  destruct (counted_open _ _ _ _ HI Hi eq_refl) as (y&Hy&Fy). simpl in Hy.
  destruct (open_ok _ _ _ _ HI Hy Fy) as (O1&O2&_).
  assert (Hl : (i < length (u_hs c))%nat) by (by eapply lookup_lt_Some).
  assert (Hiff : (u_sf c =? 1) && ((f_strong y =? 1) && (f_weak y =? 0)) = true <-> only_handle i c).
  { split.
    - intros H. apply andb_true_iff in H. destruct H as [H1 H]. apply andb_true_iff in H. destruct H as [H2 H3].
      apply N.eqb_eq in H1, H2, H3. by apply (state_only _ _ _ _ HI Hi eq_refl H1); simpl; congruence.
    - intros Hon. destruct (only_state _ _ _ _ HI Hon Hi eq_refl eq_refl (A_zero _ HA1 HA2)) as (Hsf&Hs&Hw&_).
      simpl in Hs, Hw. by rewrite Hsf, O1, O2, Hs, Hw. }
  pose proof (i_mf _ _ HI) as Hm. clear O1 O2 HI Hr Hz HA1 HA2.
  destruct c as [sf wf v d mf fs hs lg]. simpl in Hi, Hy, Hl, Hiff, Hm, Hwf. subst wf mf.
  destruct (sf =? 1) eqn:Esf.
  - exists 3%nat, (UConf sf 0 v d false fs (<[i := UH f (if (f_strong y =? 1) && (f_weak y =? 0) then UMut else UHeld)]> hs)
      (lg ++ [UGetMut ((f_strong y =? 1) && (f_weak y =? 0))])), ((f_strong y =? 1) && (f_weak y =? 0)).
    split; [|done]. simpl. rewrite Hi, Hid. simpl.
    repeat (rewrite ?list_insert_insert, list_lookup_insert by done; unfold step at 1; simpl;
      unfold with_fence; simpl; rewrite Hy, Fy; simpl; rewrite ?Esf; simpl).
    unfold say, goto, set_hs, set_wf. simpl. by rewrite !list_insert_insert.
  - exists 2%nat, (UConf sf usize_max v d false fs (<[i := UH f UHeld]> hs) (lg ++ [UGetMut false])), false.
    split; [|done]. simpl. rewrite Hi, Hid. simpl.
    repeat (rewrite ?list_insert_insert, list_lookup_insert by done; unfold step at 1; simpl;
      unfold with_fence; simpl; rewrite Hy, Fy; simpl; rewrite ?Esf; simpl).
    unfold say, goto, set_hs, set_wf. simpl. by rewrite !list_insert_insert.
Qed.

Lemma x_C68_exact_ex : forall (PR : Profile), exists c c',
  urc_reached 5 ([LCall 0 CClone; LBegin 0 CGetMut] ++ s_steps 0 3) c /\ happened is_zeroing c = 0 /\
  happened is_env_fail c = 0 /\ happened is_fence_dropped c = 0 /\ idle 0 c = true /\ u_wf c = 0 /\
  u_hs c = [UH 0 UHeld; UH 0 UHeld] /\
  urun (s_drop 1 1 ++ [LBegin 0 CGetMut] ++ s_steps 0 3) c = Some c' /\ u_log c' = [UGetMut false; UGetMut true].
Proof.
  intros PR. do 2 eexists. split; [split; [done|vm_compute; reflexivity]|]. do 6 (split; [done|]).
  split; [vm_compute; reflexivity|done].
Qed.

(** A call refused because of another thread leaves [weak_fence] locked: refused for ever, even for the only
    handle. *)
Lemma p_C68_repeat_refuted : forall (PR : Profile), exists c c',
  urc_reached 5 (s_env 0 ++ [LBegin 0 CGetMut] ++ s_steps 0 2 ++ s_drop 1 2) c /\
  u_hs c = [UH 0 UHeld; UH 1 UGone] /\ u_wf c = usize_max /\
  urun [LBegin 0 CGetMut; LStep 0 false] c = Some c' /\ u_log c' = u_log c ++ [UGetMut false].
Proof.
  intros PR. do 2 eexists. split; [split; [done|vm_compute; reflexivity]|]. do 2 (split; [done|]).
  split; [vm_compute; reflexivity|done].
Qed.

(** After a failed [try_unwrap] (C66) a mutable reference is given out while other threads hold [Urc]s. *)
Lemma p_C68_exclusive_refuted : forall (PR : Profile), exists c,
  urc_reached 5 ([LCall 0 CClone; LBegin 0 CUnwrap; LStep 0 false] ++ s_env 0 ++ [LBegin 2 CGetMut] ++ s_steps 2 3) c /\
  u_hs c = [UH 0 UHeld; UH 0 UHeld; UH 1 UMut].
Proof. intros PR. eexists. split; [split; [done|vm_compute; reflexivity]|]. done. Qed.
