(** Facts on [Urc] under the release/acquire rules, for the theorems of [PropertiesUrcOrd]. *)
From Verif Require Export UrcOrdProofs7 UrcFacts3.
From Coq Require Import ZifyBool ZifyNat ZifyN.

(** *** Schedules used as examples *)
(** Steps that read no counter. *)
Definition v0 (l : ulabel N) : ulabel N * nat := (l, 0%nat).
(** [envelop] on handle [i], which adds to the value number [t] of [strong_fence]. *)
Definition v_env (i t : nat) : list (ulabel N * nat) := [v0 (LBegin i CEnvelop); (LStep i false, t); v0 (LStep i false)].
(** The drop of the only handle [i] of a fence; other fences are left. *)
Definition v_drop (i t : nat) : list (ulabel N * nat) := [v0 (LBegin i CDrop); v0 (LStep i false); (LStep i false, t)].
(** [get_mut] on handle [i]: the lock, the count, the end. *)
Definition v_mut (i tw ts : nat) : list (ulabel N * nat) :=
  [v0 (LBegin i CGetMut); (LStep i false, tw); (LStep i false, ts); v0 (LStep i false)].
(** Two threads read the value at the same time; the second drops its handle; the first writes and reads again. *)
Definition v_two : list (ulabel N * nat) :=
  v_env 0 0 ++ [v0 (LCall 0 CRead); v0 (LCall 1 CRead)] ++ v_drop 1 1 ++ v_mut 0 0 2 ++ [v0 (LEndMut 0 7); v0 (LCall 0 CRead)].
(** [try_unwrap] fails but sets the count to zero; a handle is sent to another thread, which gets a mutable
    reference. *)
Definition v_wrong : list (ulabel N * nat) :=
  [v0 (LCall 0 CClone); v0 (LBegin 0 CUnwrap); (LStep 0 false, 0%nat)] ++ v_env 0 1 ++ v_mut 2 0 2.

(** *** C100: no data race *)
Lemma p_C100_race_free_partial : forall (PR : Profile) (T : Type) (x : T) ls w,
  urc_ord_reached x ls w -> happened is_zeroing (x_urc w) = 0 -> no_race (x_trace w).
Proof. intros PR T x ls w Hr Hz. destruct (ord_reached_inv _ _ _ Hr Hz) as (n&HX&_). apply HX. Qed.

(** The two reads are made at the same time; both happen before the write. *)
Lemma x_C100_race_free_ex : forall (PR : Profile), exists w,
  urc_ord_reached 5 v_two w /\ happened is_zeroing (x_urc w) = 0 /\ forallb sharing (map fst v_two) = true /\
  map ac_kind (x_trace w) = [KWrite; KAtomic; KRead; KRead; KAtomic; KAtomic; KAtomic; KAtomic; KWrite; KRead] /\
  u_log (x_urc w) = [URead 5; URead 5; UFreeFence 1; UGetMut true; URead 7] /\
  match x_trace w !! 3%nat, x_trace w !! 8%nat with
  | Some a3, Some a8 => bool_decide (2%nat ∈ ac_before a3) = false /\ bool_decide (3%nat ∈ ac_before a8) = true
  | _, _ => False end.
Proof.
  intros PR. eexists. split; [split; [done|vm_compute; reflexivity]|].
  split; [done|]. split; [done|]. split; [done|]. split; [done|]. vm_compute. done.
Qed.

(** After the failed [try_unwrap] one thread writes through its mutable reference while another reads. *)
Lemma p_C100_race_free_refuted : forall (PR : Profile), exists w,
  urc_ord_reached 5 (v_wrong ++ [v0 (LCall 0 CRead); v0 (LEndMut 2 9)]) w /\ ~ no_race (x_trace w).
Proof.
  intros [[] st]; eexists; (split; [split; [done|vm_compute; reflexivity]|]).
  all: intros H; specialize (H 6%nat 7%nat _ _ ltac:(lia) eq_refl eq_refl I); vm_compute in H; discriminate H.
Qed.

(** *** C101: the mutable reference *)
Lemma p_C101_exclusive_partial : forall (PR : Profile) (T : Type) (x : T) ls w i f,
  urc_ord_reached x ls w -> happened is_zeroing (x_urc w) = 0 -> u_hs (x_urc w) !! i = Some (UH f UMut) ->
  only_handle i (x_urc w) /\ knows_uses i w.
Proof.
  intros PR T x ls w i f Hr Hz Hi. destruct (ord_reached_inv _ _ _ Hr Hz) as (n&HX&_). pose proof (xi_u _ _ HX) as HI. split.
  - destruct (i_in _ _ HI _ _ Hi eq_refl) as [H1 H2].
    by eapply (state_only _ _ _ _ HI Hi eq_refl (i_sole _ _ HI _ _ Hi eq_refl)).
  - destruct (i_h _ _ HI _ _ Hi) as [Hf _]. rewrite <- (xi_len _ _ HX) in Hf. destruct (lookup_lt_is_Some_2 _ _ Hf) as [tv Hv].
    exists (UH f UMut), tv. split; [done|]. split; [done|]. intros e a He Ha.
    destruct (xi_sole _ _ HX _ _ _ _ Hi eq_refl He Ha) as (tv'&Hv'&Hin). congruence.
Qed.
Lemma x_C101_exclusive_ex : forall (PR : Profile), exists w,
  urc_ord_reached 5 (v_env 0 0 ++ [v0 (LCall 1 CRead)] ++ v_drop 1 1 ++ v_mut 0 0 2) w /\ happened is_zeroing (x_urc w) = 0 /\
  u_hs (x_urc w) = [UH 0 UMut; UH 1 UGone].
Proof. intros PR. eexists. split; [split; [done|vm_compute; reflexivity]|]. done. Qed.
Lemma p_C101_exclusive_refuted : forall (PR : Profile), exists w,
  urc_ord_reached 5 v_wrong w /\ u_hs (x_urc w) = [UH 0 UHeld; UH 0 UHeld; UH 1 UMut].
Proof. intros PR. eexists. split; [split; [done|vm_compute; reflexivity]|]. done. Qed.

(** *** C102: the value and the memory *)
Lemma p_C102_safe_partial : forall (PR : Profile) (T : Type) (x : T) ls w,
  urc_ord_reached x ls w -> happened is_zeroing (x_urc w) = 0 ->
  let c := x_urc w in
  happened is_bad c = 0 /\ (forall f, happened (is_ff f) c <= 1) /\ u_data c = UAlive /\ u_val c = last_written x (map fst ls).
Proof.
  intros PR T x ls w Hr Hz. cbv zeta. destruct (ord_reached_inv _ _ _ Hr Hz) as (n&HX&_). pose proof (xi_u _ _ HX) as HI. split; [apply HI|]. split.
  - intros f. destruct (u_fences (x_urc w) !! f) as [y|] eqn:Hy.
    + destruct (f_freed y) eqn:Fy; [destruct (freed_ok _ _ _ _ HI Hy Fy) as (_&_&->)|destruct (open_ok _ _ _ _ HI Hy Fy) as (_&_&->&_)]; lia.
    + rewrite (i_new _ _ HI); [lia|]. by apply lookup_ge_None_1.
  - split; [apply HI|]. destruct Hr as [_ Hr]. rewrite (xval_run _ _ _ Hr); [done|]. by rewrite (i_bad _ _ HI).
Qed.
Lemma p_C102_fences_partial : forall (PR : Profile) (T : Type) (x : T) ls w f,
  urc_ord_reached x ls w -> happened is_zeroing (x_urc w) = 0 -> (f < length (u_fences (x_urc w)))%nat ->
  (forall i h, u_hs (x_urc w) !! i = Some h -> u_fence h = f -> u_pc h = UGone) -> happened (is_ff f) (x_urc w) = 1.
Proof.
  intros PR T x ls w f Hr Hz Hf Hg. destruct (ord_reached_inv _ _ _ Hr Hz) as (n&HX&_). pose proof (xi_u _ _ HX) as HI.
  destruct (lookup_lt_is_Some_2 _ _ Hf) as [y Hy]. destruct (f_freed y) eqn:Fy.
  - by destruct (freed_ok _ _ _ _ HI Hy Fy) as (_&_&?).
  - exfalso. destruct (open_counted _ _ _ _ HI Hy Fy) as (j&h&Hj&Hfe&Hq). by rewrite (Hg _ _ Hj Hfe) in Hq.
Qed.
Lemma x_C102_safe_ex : forall (PR : Profile), exists w,
  urc_ord_reached 5 v_two w /\ happened is_zeroing (x_urc w) = 0 /\ forallb sharing (map fst v_two) = true /\
  last_written 5 (map fst v_two) = 7 /\ u_hs (x_urc w) = [UH 0 UHeld; UH 1 UGone] /\ happened (is_ff 1) (x_urc w) = 1.
Proof. intros PR. eexists. split; [split; [done|vm_compute; reflexivity]|]. done. Qed.
Lemma p_C102_safe_refuted : forall (PR : Profile), exists w,
  urc_ord_reached 5 [v0 (LBegin 0 CUnwrap); v0 (LStep 0 false); v0 (LStep 0 false); v0 (LStep 0 false)] w /\
  happened is_bad (x_urc w) = 1.
Proof. intros PR. eexists. split; [split; [done|vm_compute; reflexivity]|]. done. Qed.

(** *** C103: the runs of [UrcModel] *)
Lemma p_C103_interleavings : forall (PR : Profile) (T : Type) (x : T) ls c,
  urun ls (urc_init x) = Some c -> exists ls' w, xrun ls' (x_init x) = Some w /\ x_urc w = c /\ map fst ls' = ls.
Proof. intros PR T x ls c H. exact (sc_run ls (x_init x) c (NW_init x) H). Qed.
Lemma p_C103_continue : forall (PR : Profile) (T : Type) (x : T) ls0 w0 ls c,
  xrun ls0 (x_init x) = Some w0 -> urun ls (x_urc w0) = Some c ->
  exists ls' w, xrun ls' w0 = Some w /\ x_urc w = c /\ map fst ls' = ls.
Proof. intros PR T x ls0 w0 ls c H0 H. exact (sc_run ls w0 c (NW_run _ _ _ (NW_init x) H0) H). Qed.
Lemma x_C103_ex : forall (PR : Profile), exists w0 c w,
  xrun (v_env 0 0 ++ v_drop 1 1) (x_init 5) = Some w0 /\
  urun [LCall 0 CCounts; LCall 0 CRead] (x_urc w0) = Some c /\
  xrun [(LCall 0 CCounts, 2%nat); (LCall 0 CRead, 0%nat)] w0 = Some w /\ x_urc w = c /\
  u_log c = [UFreeFence 1; UCounts 1 0 true; URead 5].
Proof.
  intros PR. eexists _, _, _. split; [vm_compute; reflexivity|]. split; [vm_compute; reflexivity|].
  split; [vm_compute; reflexivity|]. done.
Qed.
(** Not conversely: a count may be read that is not the present one. *)
Lemma x_C103_more_ex : forall (PR : Profile), exists w,
  xrun (v_env 0 0 ++ v_drop 1 1 ++ [(LCall 0 CCounts, 1%nat)]) (x_init 5) = Some w /\
  u_log (x_urc w) = [UFreeFence 1; UCounts 1 0 false] /\ u_hs (x_urc w) = [UH 0 UHeld; UH 1 UGone] /\ u_sf (x_urc w) = 1.
Proof. intros PR. eexists. split; [vm_compute; reflexivity|]. done. Qed.

(** *** C104: [get_mut] on the only handle *)
Lemma p_C104_get_mut_partial : forall (PR : Profile) (T : Type) (x : T) ls w i f b1 b2 b3,
  urc_ord_reached x ls w -> happened is_zeroing (x_urc w) = 0 ->
  happened is_env_fail (x_urc w) = 0 -> happened is_fence_dropped (x_urc w) = 0 ->
  u_hs (x_urc w) !! i = Some (UH f UHeld) -> idle f (x_urc w) = true -> only_handle i (x_urc w) -> u_wf (x_urc w) = 0 ->
  knows_fences i w ->
  (exists t0 t1 t2 t3 w', xrun [(LBegin i CGetMut, t0); (LStep i b1, t1); (LStep i b2, t2); (LStep i b3, t3)] w = Some w') /\
  forall t0 t1 t2 t3 w', xrun [(LBegin i CGetMut, t0); (LStep i b1, t1); (LStep i b2, t2); (LStep i b3, t3)] w = Some w' ->
    u_hs (x_urc w') !! i = Some (UH f UMut) /\ u_log (x_urc w') = u_log (x_urc w) ++ [UGetMut true].
Proof.
  intros PR T x ls w i f b1 b2 b3 Hr Hz HA1 HA2 Hi Hid Hon Hwf Hkn.
  assert (HN : NW w) by (destruct Hr as [_ Hr]; eapply NW_run; [apply NW_init|exact Hr]).
  destruct (ord_reached_inv _ _ _ Hr Hz) as (n&HX&_). pose proof (xi_u _ _ HX) as HI.
  destruct (counted_open _ _ _ _ HI Hi eq_refl) as (y&Hy&Fy). simpl in Hy.
  destruct (open_ok _ _ _ _ HI Hy Fy) as (O1&O2&_).
  destruct (only_state _ _ _ _ HI Hon Hi eq_refl eq_refl (A_zero _ HA1 HA2)) as (Hsf&Hs&Hw&_). simpl in Hs, Hw.
  rewrite Hs in O1. rewrite Hw in O2. pose proof (i_mf _ _ HI) as Hm.
  assert (Hl : (i < length (u_hs (x_urc w)))%nat) by (by eapply lookup_lt_Some).
  assert (Hu : exists c', urun [LBegin i CGetMut; LStep i b1; LStep i b2; LStep i b3] (x_urc w) = Some c' /\
    u_hs c' = <[i := UH f UMut]> (u_hs (x_urc w)) /\ u_log c' = u_log (x_urc w) ++ [UGetMut true]).
  { clear -Hi Hid Hwf Hy Fy O1 O2 Hsf Hm Hl. destruct (x_urc w) as [sf wf v d mf fs hs lg]. simpl in *. subst sf wf mf.
    eexists. split.
    - rewrite Hi, Hid. simpl.
      repeat (rewrite ?list_insert_insert, list_lookup_insert by done; unfold step at 1; simpl;
        unfold with_fence; simpl; rewrite Hy, Fy; simpl).
      rewrite O1, O2. simpl. reflexivity.
    - simpl. by rewrite !list_insert_insert. }
  destruct Hu as (c'&Hu&Eh&El). split.
  - destruct (sc_run _ w c' HN Hu) as (ls'&w'&Hx&_&Em).
    destruct ls' as [|[l0 t0] [|[l1 t1] [|[l2 t2] [|[l3 t3] [|]]]]]; try done. simpl in Em. injection Em as -> -> -> ->.
    by exists t0, t1, t2, t3, w'.
  - intros t0 t1 t2 t3 w' Hx.
    assert (K : kn w f) by (destruct Hkn as (h&tv&Hh&Hv&K1&K2); rewrite Hi in Hh; injection Hh as <-; by exists tv).
    assert (Hgen : forall (ls : list (ulabel T * nat)) (w w' : xconf T) h, NW w -> u_hs (x_urc w) !! i = Some h -> kn w (u_fence h) ->
      Forall (fun p => who (fst p) = i /\ forall q, fence_l (fst p) q <> None -> q = UDLoadW \/ q = WLoadS) ls ->
      forall c1, urun (map fst ls) (x_urc w) = Some c1 ->
      (forall k c2, urun (take k (map fst ls)) (x_urc w) = Some c2 -> forall g p, u_hs c2 !! i = Some (UH g p) -> p <> UDLoadW /\ p <> WLoadS) ->
      xrun ls w = Some w' -> x_urc w' = c1).
    { clear. induction ls as [|[l t] ls IH]; intros w w' h HN Hi K HF c1 Hu Hp Hx; simpl in *; [congruence|].
      destruct (xstep l t w) as [w1|] eqn:E; [|done]. apply Forall_cons in HF as [[Hwho Hfe] HF]. simpl in Hwho, Hfe.
      destruct (kn_step l t w w1 h HN) as [Hu1 K1]; [by rewrite Hwho|done| |done|].
      { destruct (fence_l l (u_pc h)) eqn:Ef; [|done]. exfalso. destruct h as [g p]. destruct (Hp 0%nat _ eq_refl _ _ Hi) as [P1 P2].
        destruct (Hfe p) as [?|?]; [simpl in Ef; by rewrite Ef|done|done]. }
      rewrite Hu1 in Hu. rewrite <- Hwho in Hi. destruct (ustep_who _ _ _ _ Hu1 Hi) as [p Hp1]. rewrite Hwho in Hp1.
      eapply (IH w1 w' (UH (u_fence h) p)); [by eapply NW_step|done|done|done|done| |done].
      intros k c2 Hk. apply (Hp (S k)). simpl. by rewrite Hu1. }
    assert (E : x_urc w' = c').
    { eapply (Hgen [(LBegin i CGetMut, t0); (LStep i b1, t1); (LStep i b2, t2); (LStep i b3, t3)] w w' _ HN Hi K); [|exact Hu| |exact Hx].
      - repeat (apply Forall_cons; split; [split; [done|]; simpl; intros q; by destruct q; auto|]). done.
      - clear -Hi Hid Hwf Hy Fy O1 O2 Hsf Hm Hl. destruct (x_urc w) as [sf wf v d mf fs hs lg]. simpl in *. subst sf wf mf.
        intros [|[|[|[|k]]]] c2; simpl; rewrite ?Hi, ?Hid; simpl.
        5: destruct k; simpl.
        all: repeat (rewrite ?list_insert_insert, list_lookup_insert by done; unfold step at 1; simpl;
          unfold with_fence; simpl; rewrite Hy, Fy; simpl).
        all: rewrite ?O1, ?O2; simpl; intros [= <-]; simpl; intros g p; rewrite ?list_lookup_insert by (by rewrite ?insert_length);
          rewrite ?Hi; intros [= _ <-]; done. }
    rewrite E, Eh, El. split; [by apply list_lookup_insert|done].
Qed.
Lemma x_C104_get_mut_ex : forall (PR : Profile), exists w,
  urc_ord_reached 5 (v_env 0 0 ++ v_drop 1 1 ++ [(LCall 0 CCounts, 2%nat)]) w /\ happened is_zeroing (x_urc w) = 0 /\
  happened is_env_fail (x_urc w) = 0 /\ happened is_fence_dropped (x_urc w) = 0 /\
  u_hs (x_urc w) = [UH 0 UHeld; UH 1 UGone] /\ idle 0 (x_urc w) = true /\ u_wf (x_urc w) = 0 /\ knows_fences 0 w.
Proof.
  intros PR. eexists. split; [split; [done|vm_compute; reflexivity]|]. do 6 (split; [done|]).
  eexists _, _. split; [done|]. split; [done|]. done.
Qed.
(** The other thread has dropped its handle, but the drop is not yet visible: [get_mut] fails, and leaves
    [weak_fence] locked, so that it also fails later. *)
Lemma p_C104_get_mut_refuted : forall (PR : Profile), exists w,
  urc_ord_reached 5 (v_env 0 0 ++ v_drop 1 1) w /\ u_hs (x_urc w) = [UH 0 UHeld; UH 1 UGone] /\ u_wf (x_urc w) = 0 /\
  u_sf (x_urc w) = 1 /\
  exists w', xrun [v0 (LBegin 0 CGetMut); v0 (LStep 0 false); (LStep 0 false, 1%nat)] w = Some w' /\
    u_log (x_urc w') = [UFreeFence 1; UGetMut false] /\ u_wf (x_urc w') = usize_max /\
    forall t0 t1 w2, xrun [(LBegin 0 CGetMut, t0); (LStep 0 false, t1)] w' = Some w2 ->
      u_log (x_urc w2) = [UFreeFence 1; UGetMut false; UGetMut false] /\ u_wf (x_urc w2) = usize_max.
Proof.
  intros PR. eexists. split; [split; [done|vm_compute; reflexivity]|]. do 3 (split; [done|]).
  eexists. split; [vm_compute; reflexivity|]. do 2 (split; [done|]).
  intros t0 t1 w2 H. destruct t1 as [|[|t1]]; vm_compute in H; try discriminate H. injection H as <-. done.
Qed.

(** *** C105: moving the value out *)
Lemma p_C105_unwrap_partial : forall (PR : Profile) (T : Type) (x : T) ls w i f b t w',
  urc_ord_reached x ls w -> happened is_zeroing (x_urc w) = 0 -> u_hs (x_urc w) !! i = Some (UH f UCas) ->
  xstep (LStep i b) t w = Some w' -> u_hs (x_urc w') !! i = Some (UH f UTake) -> only_urc i (x_urc w') /\ knows_uses i w'.
Proof.
  intros PR T x ls w i f b t w' Hr Hz Hi Hst Hi'. destruct (ord_reached_inv _ _ _ Hr Hz) as (n&HX&_). pose proof (xi_u _ _ HX) as HI.
  apply xstep_inv in Hst as (h&tv&tv'&w1&Hi0&Hv&Hpf&Eu&Es&Ew&Et&Ev). simpl in Hi0. rewrite Hi in Hi0. injection Hi0 as <-.
  apply perform_spec in Hpf as [(Hle&_&Htr&_&Hnew) Hp]. simpl in Hp, Hv, Hle, Htr, Ev.
  destruct (counted_open _ _ _ _ HI Hi eq_refl) as (y&Hy&Fy). simpl in Hy.
  destruct (open_ok _ _ _ _ HI Hy Fy) as (O1&O2&_).
  assert (Hl : (i < length (u_hs (x_urc w)))%nat) by (by eapply lookup_lt_Some).
  assert (Hown : x_fv w' !! f = Some tv').
  { apply lookup_lt_Some in Hv as Hlt. rewrite Ev. destruct (_ <? _)%nat; [apply lookup_app_l_Some|]; by apply list_lookup_insert. }
  rewrite Eu in Hi' |- *.
  assert (Hval : forall v c1, ustep (LStep i b) (set_sf v (x_urc w)) = Some c1 -> u_hs c1 !! i = Some (UH f UTake) ->
    v = 1 /\ u_sf c1 = 0 /\ f_strong y = 1 /\ u_hs c1 = <[i := UH f UTake]> (u_hs (x_urc w))).
  { intros v c1 Hgo Ht. simpl in Hgo. rewrite Hi in Hgo. unfold step in Hgo. simpl in Hgo.
    unfold with_fence in Hgo. simpl in Hgo. rewrite Hy, Fy in Hgo. unfold mem_ok in Hgo. simpl in Hgo.
    rewrite (i_mf _ _ HI) in Hgo. simpl in Hgo. injection Hgo as <-.
    destruct (v =? 1) eqn:E1; simpl in Ht |- *.
    - destruct (f_strong y =? 1) eqn:E2; simpl in Ht |- *; rewrite list_lookup_insert in Ht by done; [|done].
      apply N.eqb_eq in E1, E2. done.
    - by rewrite list_lookup_insert in Ht by done. }
  destruct Hp as [[(m1&c1&Hm1&_&Hgo1&E1&_) (m&c2&Hm&Hgo&Ec)]|(m&m'&Hm&Hgo&_&_&_&_&Hacq&_)]; simpl in *.
  - (* the exchange does not succeed *)
    exfalso. rewrite Hm1 in Hm. injection Hm as <-. rewrite Hgo in Hgo1. injection Hgo1 as <-. rewrite E1 in Hi'. simpl in Hi'.
    destruct (Hval _ _ Hgo Hi') as (V1&V2&_). rewrite V2, V1 in Ec. done.
  - destruct (Hval _ _ Hgo Hi') as (V1&V2&V3&V4).
    assert (Hsf : u_sf (x_urc w) = 1) by (rewrite <- V1; symmetry; apply (xi_last _ _ HX LStrong _ Hm)).
    split.
    + intros j h' Hne Hj. rewrite V4, list_lookup_insert_ne in Hj by done.
      destruct (is_urc (u_pc h')) eqn:E; [|done]. exfalso.
      destruct (i_h _ _ HI _ _ Hj) as [_ Hzp]. pose proof (is_urc_sc _ Hzp E) as Hsc.
      pose proof (sole_fence _ _ _ _ _ _ HI Hsf Hi eq_refl Hj) as Hf. rewrite Hsc in Hf. specialize (Hf eq_refl). simpl in Hf.
      pose proof (count_two f sc (x_urc w) i j _ _ (not_eq_sym Hne) Hi Hj eq_refl Hf eq_refl Hsc) as H2. clear -H2 V3 O1. lia.
    + exists (UH f UTake), tv'. rewrite Eu. split; [done|]. split; [done|]. intros e a He Ha. rewrite Et, Htr in He.
      apply lookup_app_Some in He as [He|[_ He]].
      * eapply (one_known n w f tv tv' m HX); try done; [by exists y|by apply Hacq].
      * apply list_lookup_singleton_Some in He as [_ <-]. by destruct Ha.
Qed.
Lemma x_C105_unwrap_ex : forall (PR : Profile), exists w w',
  urc_ord_reached 5 (v_env 0 0 ++ [v0 (LCall 1 CRead)] ++ v_drop 1 1 ++ [v0 (LBegin 0 CUnwrap)]) w /\
  happened is_zeroing (x_urc w) = 0 /\ u_hs (x_urc w) !! 0%nat = Some (UH 0 UCas) /\
  xstep (LStep 0 false) 2 w = Some w' /\ u_hs (x_urc w') !! 0%nat = Some (UH 0 UTake).
Proof.
  intros PR. eexists _, _. split; [split; [done|vm_compute; reflexivity]|]. do 2 (split; [done|]).
  split; [vm_compute; reflexivity|]. done.
Qed.
(** [make_mut] without [Weak]s decides to move the value out. *)
Lemma p_C105_make_mut_partial : forall (PR : Profile) (T : Type) (x : T) ls w i f b t w',
  urc_ord_reached x ls w -> happened is_zeroing (x_urc w) = 0 -> u_hs (x_urc w) !! i = Some (UH f UM0) ->
  xstep (LStep i b) t w = Some w' -> u_hs (x_urc w') !! i = Some (UH f UMLoad) -> knows_uses i w'.
Proof.
  intros PR T x ls w i f b t w' Hr Hz Hi Hst Hi'. destruct (ord_reached_inv _ _ _ Hr Hz) as (n&HX&_). pose proof (xi_u _ _ HX) as HI.
  apply xstep_inv in Hst as (h&tv&tv'&w1&Hi0&Hv&Hpf&Eu&Es&Ew&Et&Ev). simpl in Hi0. rewrite Hi in Hi0. injection Hi0 as <-.
  apply perform_spec in Hpf as [(Hle&_&Htr&_&Hnew) Hp]. simpl in Hp.
  destruct Hp as (m&c1&Hm&Ht&Hgo&E1&_&_&Hacq). simpl in *.
  destruct (counted_open _ _ _ _ HI Hi eq_refl) as (y&Hy&Fy). simpl in Hy.
  assert (Hl : (i < length (u_hs (x_urc w)))%nat) by (by eapply lookup_lt_Some).
  assert (Hown : x_fv w' !! f = Some tv').
  { apply lookup_lt_Some in Hv as Hlt. rewrite Ev. destruct (_ <? _)%nat; [apply lookup_app_l_Some|]; by apply list_lookup_insert. }
  assert (V1 : m_val m = 1).
  { rewrite Eu, E1 in Hi'. simpl in Hi'. rewrite Hi in Hgo. unfold step in Hgo. simpl in Hgo.
    unfold with_fence in Hgo. simpl in Hgo. rewrite Hy, Fy in Hgo. unfold mem_ok in Hgo. simpl in Hgo.
    rewrite (i_mf _ _ HI) in Hgo. simpl in Hgo. injection Hgo as <-.
    destruct (m_val m =? 1) eqn:E2; [by apply N.eqb_eq|]. simpl in Hi'. by rewrite list_lookup_insert in Hi'. }
  assert (Hof : is_open (x_urc w) f) by (by exists y).
  assert (Hl0 : last (x_strong w) = Some m).
  { rewrite last_lookup. apply lookup_lt_Some in Hm as Hlt. destruct (decide (S t < length (x_strong w))%nat) as [Hs|Hs].
    - pose proof (xi_pos _ _ HX f tv t m Hof Hv Hm Ht Hs). lia.
    - replace (Nat.pred (length (x_strong w))) with t by lia. done. }
  exists (UH f UMLoad), tv'. split; [done|]. split; [done|]. intros e a He Ha. rewrite Et, Htr in He.
  apply lookup_app_Some in He as [He|[_ He]].
  - eapply (one_known n w f tv tv' m HX); try done. by apply Hacq.
  - apply list_lookup_singleton_Some in He as [_ <-]. by destruct Ha.
Qed.
Lemma x_C105_make_mut_ex : forall (PR : Profile), exists w w',
  urc_ord_reached 5 (v_env 0 0 ++ [v0 (LCall 1 CRead)] ++ v_drop 1 1 ++ [v0 (LBegin 0 CMakeMut)]) w /\
  happened is_zeroing (x_urc w) = 0 /\ u_hs (x_urc w) !! 0%nat = Some (UH 0 UM0) /\
  xstep (LStep 0 false) 2 w = Some w' /\ u_hs (x_urc w') !! 0%nat = Some (UH 0 UMLoad).
Proof.
  intros PR. eexists _, _. split; [split; [done|vm_compute; reflexivity]|]. do 2 (split; [done|]).
  split; [vm_compute; reflexivity|]. done.
Qed.
(** After the failed [try_unwrap] the value is moved out by the handle sent away while the first thread reads it. *)
Lemma p_C105_unwrap_refuted : forall (PR : Profile), exists w,
  urc_ord_reached 5 ([v0 (LCall 0 CClone); v0 (LBegin 0 CUnwrap); (LStep 0 false, 0%nat)] ++ v_env 0 1 ++
    [v0 (LBegin 2 CUnwrap); (LStep 2 false, 2%nat); v0 (LCall 0 CRead); v0 (LStep 2 false)]) w /\
  u_hs (x_urc w) !! 0%nat = Some (UH 0 UHeld) /\ u_data (x_urc w) = UMoved /\ ~ no_race (x_trace w).
Proof.
  intros [[] st]; eexists; (split; [split; [done|vm_compute; reflexivity]|]; do 2 (split; [done|])).
  all: intros H; specialize (H 4%nat 5%nat _ _ ltac:(lia) eq_refl eq_refl I); vm_compute in H; discriminate H.
Qed.

(** *** C106: used for sharing only *)
Lemma p_C106_sharing : forall (PR : Profile) (T : Type) (x : T) ls w,
  urc_ord_reached x ls w -> forallb sharing (map fst ls) = true ->
  let c := x_urc w in
  no_race (x_trace w) /\ happened is_bad c = 0 /\ (forall f, happened (is_ff f) c <= 1) /\ u_data c = UAlive /\
  u_val c = last_written x (map fst ls) /\
  (forall i f, u_hs c !! i = Some (UH f UMut) -> only_handle i c /\ knows_uses i w) /\
  (forall i f, u_hs c !! i = Some (UH f UHeld) -> idle f c = true ->
     exists t w', xstep (LCall i CRead) t w = Some w') /\
  (forall i f t w', u_hs c !! i = Some (UH f UHeld) -> xstep (LCall i CRead) t w = Some w' ->
     u_log (x_urc w') = u_log c ++ [URead (last_written x (map fst ls))]).
Proof.
  intros PR T x ls w Hr Hs. cbv zeta. pose proof (ord_sharing_zero _ _ _ Hr Hs) as Hz.
  destruct (p_C102_safe_partial _ _ _ _ _ Hr Hz) as (H1&H2&H3&H4). split; [by eapply p_C100_race_free_partial|].
  do 4 (split; [done|]). split; [intros; by eapply p_C101_exclusive_partial|].
  assert (HN : NW w) by (destruct Hr as [_ Hr]; eapply NW_run; [apply NW_init|exact Hr]).
  destruct (ord_reached_inv _ _ _ Hr Hz) as (n&HX&_). pose proof (xi_u _ _ HX) as HI. split.
  - intros i f Hi Hid. destruct (sc_step (LCall i CRead) w (call1 i (UH f UHeld) CRead (x_urc w)) HN) as (t&w'&Hst&_).
    + simpl. by rewrite Hi, Hid.
    + by exists t, w'.
  - intros i f t w' Hi Hst. apply xstep_inv in Hst as (h&tv&tv'&w1&Hi0&Hv&Hpf&Eu&_). simpl in Hi0. rewrite Hi in Hi0. injection Hi0 as <-.
    apply perform_spec in Hpf as [_ Hp]. cbn [action_l performed] in Hp. destruct Hp as (Hgo&_). rewrite Eu. simpl in Hgo. rewrite Hi in Hgo.
    destruct (idle f (x_urc w)); [|done]. injection Hgo as <-. unfold checked. rewrite (inv_val _ _ HI). simpl. by rewrite H4.
Qed.
Lemma x_C106_sharing_ex : forall (PR : Profile), exists w,
  urc_ord_reached 5 v_two w /\ forallb sharing (map fst v_two) = true /\
  u_hs (x_urc w) = [UH 0 UHeld; UH 1 UGone] /\ idle 0 (x_urc w) = true /\ last_written 5 (map fst v_two) = 7.
Proof. intros PR. eexists. split; [split; [done|vm_compute; reflexivity]|]. done. Qed.
