(** Facts on [Arc] under the release/acquire rules, for the theorems of [PropertiesArcOrd]. *)
From Verif Require Export ArcOrdProofs7 ArcOrdProofs8 ArcOrdProofs9.
From Coq Require Import ZifyBool ZifyNat ZifyN.

(** *** Schedules used as examples *)
Definition w0 (l : alabel N) : wlabel N := WStep l 0.
(** Two handles, the second in another thread; both read the value, then both are dropped. *)
Definition o_two : list (wlabel N) :=
  [w0 (LBeginS 0 CClone); WStep (LSh 0 0 false) 0; w0 (LSh 0 0 false);
   w0 (LBeginS 0 CRead); w0 (LBeginS 1 CRead); w0 (LSh 1 0 true); w0 (LBeginX 1 CDrop); w0 (LSh 0 0 true);
   w0 (LBeginX 0 CDrop); WStep (LEx 1 false) 1; WStep (LEx 0 false) 2; w0 (LEx 0 false); w0 (LEx 0 false); w0 (LEx 0 false)].
(** A [Weak] is made; then [make_mut] moves the value out and the allocator refuses. *)
Definition o_lost : list (wlabel N) :=
  [w0 (LBeginS 0 CDowngrade); WStep (LSh 0 0 false) 0; WStep (LSh 0 0 false) 0;
   w0 (LBeginX 0 CMakeMut); WStep (LEx 0 false) 0; WStep (LEx 0 false) 1; WStep (LEx 0 false) 1; WStep (LEx 0 false) 0;
   w0 (LEx 0 false); w0 (LEx 0 true)].
(** A handle is cloned and the clone is dropped, in another thread. *)
Definition o_back : list (wlabel N) :=
  [w0 (LBeginS 0 CClone); WStep (LSh 0 0 false) 0; w0 (LSh 0 0 false); w0 (LBeginX 1 CDrop); WStep (LEx 1 false) 1].

Lemma ord_split {PR : Profile} {T} (x : T) ls w :
  ord_reached x ls w -> (WI w /\ happened is_lost (w_arc w) = 0) \/ exists n, PDw n w.
Proof.
  intros [Hl Hr]. eapply any_wrun; [apply (WI_init x)|done|exact Hr|].
  change (asize (w_arc (w_init x))) with 1. lia.
Qed.

(** *** C92: no data race *)
Lemma p_C92_race_free_partial : forall (PR : Profile) (T : Type) (x : T) ls w,
  ord_reached x ls w -> happened is_lost (w_arc w) = 0 -> race_free w.
Proof.
  intros PR T x ls w Hr H0. destruct (ord_inv x ls w Hr H0) as ((_&[[_ HV]|[[_ HV]|[_ HV]]])&_); [|by apply HV|done].
  by destruct HV as (_&_&_&_&_&?).
Qed.

(** The two reads are made at the same time; both happen before the destruction and the freeing. *)
Lemma x_C92_race_free_ex : forall (PR : Profile), exists w,
  ord_reached 5 o_two w /\ happened is_lost (w_arc w) = 0 /\
  map ac_kind (w_trace w) = [KWrite; KAtomic; KRead; KRead; KAtomic; KAtomic; KWrite; KAtomic; KFree] /\
  match w_trace w !! 3%nat, w_trace w !! 6%nat with
  | Some a3, Some a6 => bool_decide (2%nat ∈ ac_before a3) = false /\ bool_decide (2%nat ∈ ac_before a6) = true
  | _, _ => False end.
Proof.
  intros PR. eexists. split; [split; [done|vm_compute; reflexivity]|].
  split; [done|]. split; [done|]. vm_compute. done.
Qed.

(** After a refused allocation in [make_mut] the counter is wrong: one handle destroys the value while another reads it. *)
Lemma p_C92_race_free_refuted : forall (PR : Profile), exists w,
  ord_reached 5 (o_lost ++ [w0 (LBeginS 0 CClone); WStep (LSh 0 0 false) 1; w0 (LSh 0 0 false);
    w0 (LBeginS 1 CRead); w0 (LSh 1 0 false); w0 (LBeginX 0 CDrop); WStep (LEx 0 false) 2; w0 (LEx 0 false)]) w /\
  ~ race_free w.
Proof.
  intros [[] st]; eexists; (split; [split; [done|vm_compute; reflexivity]|]).
  all: intros H; specialize (H 9%nat 11%nat _ _ ltac:(lia) eq_refl eq_refl I); vm_compute in H; discriminate H.
Qed.

(** *** C93: the value and the memory *)
Lemma p_C93_safe_partial : forall (PR : Profile) (T : Type) (x : T) ls w,
  ord_reached x ls w -> happened is_lost (w_arc w) = 0 ->
  happened is_bad (w_arc w) = 0 /\ happened is_destroy (w_arc w) + happened is_out (w_arc w) <= 1 /\
  happened is_free (w_arc w) <= 1.
Proof.
  intros PR T x ls w Hr H0. destruct (ord_inv x ls w Hr H0) as ((_&HP)&Hb&_). split; [done|].
  destruct HP as [[HA _]|[[HB _]|[HC _]]].
  - destruct HA as (_&_&_&_&_&_&_&_&_&_&E1&E2&E3&_). lia.
  - destruct HB as (i&y&_&_&_&_&_&_&_&_&_&_&E1&E2&E3&_). rewrite E1, E2, E3. destruct (stage y); lia.
  - destruct HC as (_&_&_&_&E1&E2&_). rewrite E1, E2. destruct (a_freed (w_arc w)); lia.
Qed.
Lemma x_C93_safe_ex : forall (PR : Profile), exists w,
  ord_reached 5 o_two w /\ happened is_lost (w_arc w) = 0 /\
  a_log (w_arc w) = [ACloneOk; ARead 5; ARead 5; ADestroy; AFree] /\ all_gone (w_arc w).
Proof.
  intros PR. eexists. split; [split; [done|vm_compute; reflexivity]|].
  split; [done|]. split; [done|]. repeat constructor.
Qed.
Lemma p_C93_safe_refuted : forall (PR : Profile), exists w,
  ord_reached 5 (o_lost ++ [w0 (LBeginS 0 CRead); w0 (LSh 0 0 true)]) w /\ happened is_bad (w_arc w) = 1.
Proof. intros [[] st]; eexists; (split; [split; [done|vm_compute; reflexivity]|done]). Qed.

Lemma p_C93_last_handle_partial : forall (PR : Profile) (T : Type) (x : T) ls w,
  let c := w_arc w in
  ord_reached x ls w -> happened is_lost c = 0 -> all_gone c ->
  happened is_forget c = 0 -> happened is_clone_panic c = 0 ->
  happened is_destroy c + happened is_out c = 1 /\
  (happened is_drop_panic c = 0 -> a_freed c = true <-> happened is_weak_made c = 0) /\
  (a_freed c = true -> happened is_free c = 1).
Proof.
  intros PR T x ls w c Hr H0 Hg Hf Hp. destruct (ord_inv x ls w Hr H0) as ((_&HP)&_).
  assert (HL : happened is_leak c = 0) by (rewrite leaks; lia).
  assert (HW : owners (a_hs c) = 0).
  { apply sumN_zero. eapply Forall_impl; [exact Hg|]. by intros ? ->. }
  destruct HP as [[HA _]|[[HB _]|[HC _]]].
  - exfalso. destruct HA as (_&_&Hs&H1&_). fold c in Hs, H1. lia.
  - exfalso. destruct HB as (i&y&Hi&He&_). pose proof (Forall_lookup_1 _ _ _ _ Hg Hi) as E. simpl in E.
    injection E as ->. done.
  - destruct HC as (_&_&_&_&E1&E2&E3&E4). fold c in E1, E2, E3, E4. split; [done|]. split.
    + intros HD. destruct (a_freed c); [split; [by apply E3|done]|]. split; [done|]. intros HV. destruct (E4 eq_refl); lia.
    + intros Hf'. by rewrite E2, Hf'.
Qed.
Lemma x_C93_last_handle_ex : forall (PR : Profile), exists w,
  ord_reached 5 o_two w /\ happened is_lost (w_arc w) = 0 /\ all_gone (w_arc w) /\ happened is_forget (w_arc w) = 0 /\
  happened is_clone_panic (w_arc w) = 0 /\ happened is_weak_made (w_arc w) = 0 /\ happened is_drop_panic (w_arc w) = 0 /\
  a_freed (w_arc w) = true.
Proof.
  intros PR. eexists. split; [split; [done|vm_compute; reflexivity]|]. split; [done|].
  split; [by repeat constructor|]. done.
Qed.
(** A [Weak] was made and dropped: the memory is not freed. *)
Lemma p_C93_last_handle_refuted : forall (PR : Profile), exists w,
  ord_reached 5 [w0 (LBeginS 0 CDowngrade); WStep (LSh 0 0 false) 0; WStep (LSh 0 0 false) 0; w0 LWeakDrop;
    w0 (LBeginX 0 CDrop); WStep (LEx 0 false) 0; w0 (LEx 0 false); WStep (LEx 0 false) 1] w /\
  all_gone (w_arc w) /\ weaks (w_arc w) = 0 /\ happened is_destroy (w_arc w) = 1 /\ happened is_forget (w_arc w) = 0 /\
  a_freed (w_arc w) = false.
Proof.
  intros PR. eexists. split; [split; [done|vm_compute; reflexivity]|]. split; [by repeat constructor|]. done.
Qed.

(** *** C94: the mutable reference *)
Lemma p_C94_exclusive : forall (PR : Profile) (T : Type) (x : T) ls w i h,
  ord_reached x ls w -> a_hs (w_arc w) !! i = Some h -> h_ex h = XMut ->
  alone i (w_arc w) /\ h_sh h = [] /\ happened is_forget (w_arc w) = 0 /\ a_data (w_arc w) = Alive /\
  a_freed (w_arc w) = false /\ knows_all i w.
Proof.
  intros PR T x ls w i h Hr Hi Hx. destruct (ord_split _ _ _ Hr) as [[HI H0]|[n [Hq _]]].
  - destruct HI as (Hsh&[[HA HV]|[[HB _]|[HC _]]]).
    + destruct HA as (Hd&Hf&Hs&Hp&Hlv&HK&Hw&Hz&Hlone&Hinc&E1&E2&E3&E4).
      pose proof (Hlone i h Hi) as H1. rewrite Hx in H1. specialize (H1 eq_refl).
      pose proof (owner_pos (w_arc w) i h Hi) as Ho. assert (Hoh : 1 <= own h) by (unfold own; rewrite Hx; simpl; lia).
      destruct (alone_one (w_arc w) i h Hlv Hi Hoh) as [Ha _]; [lia|]. split; [done|].
      pose proof (Forall_lookup_1 _ _ _ _ Hlv Hi) as [_ Hh]. split; [apply Hh; by rewrite Hx|].
      split; [rewrite leaks in Hs; lia|]. split; [done|]. split; [done|].
      destruct HV as (_&_&_&_&Hfull&_). destruct Hsh as (Hlen&_). apply lookup_lt_Some in Hi as Hil. rewrite <- Hlen in Hil.
      destruct (lookup_lt_is_Some_2 _ _ Hil) as [hv Hv]. exists hv. split; [done|].
      intros e a He. eapply top_in; [|exact He]. apply (Hfull i h hv); [by split|by rewrite Hx].
    + exfalso. destruct HB as (j&y&Hj&He&Ha&_). destruct (decide (i = j)) as [->|Hne].
      * rewrite Hj in Hi. injection Hi as <-. simpl in Hx. by subst y.
      * by rewrite (Ha _ _ Hne Hi) in Hx.
    + exfalso. destruct HC as [Hg _]. by rewrite (Forall_lookup_1 _ _ _ _ Hg Hi) in Hx.
  - exfalso. pose proof (Forall_lookup_1 _ _ _ _ Hq Hi) as H. simpl in H. by rewrite Hx in H.
Qed.
Lemma x_C94_exclusive_ex : forall (PR : Profile), exists w,
  ord_reached 5 (o_back ++ [w0 (LBeginX 0 CGetMut); WStep (LEx 0 false) 0; WStep (LEx 0 false) 2; w0 (LEx 0 false)]) w /\
  a_hs (w_arc w) = [AHandle XMut []; gone].
Proof. intros PR. eexists. split; [split; [done|vm_compute; reflexivity]|done]. Qed.
(** The only handle left may still read the old count: [get_mut] then returns [None]. *)
Lemma x_C94_stale_ex : forall (PR : Profile), exists w,
  ord_reached 5 (o_back ++ [w0 (LBeginX 0 CGetMut); WStep (LEx 0 false) 0; WStep (LEx 0 false) 1; w0 (LEx 0 false)]) w /\
  a_hs (w_arc w) = [held; gone] /\ a_strong (w_arc w) = 1 /\ a_weak (w_arc w) = 0 /\ last (a_log (w_arc w)) = Some (AGetMut false).
Proof. intros PR. eexists. split; [split; [done|vm_compute; reflexivity]|done]. Qed.

(** If the owner knows the latest counts (because the threads were joined, say), [get_mut] succeeds. *)
Lemma p_C94_get_mut : forall (PR : Profile) (T : Type) (x : T) ls w w' i f1 f2 f3 t0 t1 t2 t3,
  ord_reached x ls w -> happened is_lost (w_arc w) = 0 -> a_hs (w_arc w) !! i = Some held ->
  knows_counts i w ->
  wrun [WStep (LBeginX i CGetMut) t0; WStep (LEx i f1) t1; WStep (LEx i f2) t2; WStep (LEx i f3) t3] w = Some w' ->
  a_strong (w_arc w) = 1 -> a_weak (w_arc w) = 0 ->
  a_hs (w_arc w') !! i = Some (AHandle XMut []) /\ a_log (w_arc w') = a_log (w_arc w) ++ [AGetMut true].
Proof.
  intros PR T x ls w w' i f1 f2 f3 t0 t1 t2 t3 Hr H0 Hi (hv&Hiv&Hps&Hpw) Hrun Hs Hw.
  destruct (ord_inv x ls w Hr H0) as ((Hsh&HP)&_).
  assert (Hf : a_freed (w_arc w) = false).
  { destruct HP as [[(_&Hf&_) _]|[[(j&y&Hj&He&Ha&_&_&_&Hf&_) _]|[[Hg _] _]]]; [done|done|].
    pose proof (Forall_lookup_1 _ _ _ _ Hg Hi). done. }
  apply lookup_lt_Some in Hi as Hil. apply lookup_lt_Some in Hiv as Hivl.
  cbn [wrun] in Hrun.
  (* the call begins *)
  unfold wstep at 1 in Hrun. unfold astep in Hrun. rewrite Hi in Hrun. cbn [mbind option_bind begin_excl] in Hrun.
  (* the lock *)
  unfold wstep at 1 in Hrun. cbn [set_arc w_arc w_hv] in Hrun.
  assert (Hi1 : a_hs (goto i XLock (w_arc w)) !! i = Some (AHandle XLock [])) by (simpl; by rewrite list_lookup_insert).
  rewrite Hi1, Hiv in Hrun. cbn [mbind option_bind h_ex action_x fence_x fenced] in Hrun.
  destruct (perform _ t1 _ _ _) as [[tv1 w1]|] eqn:Hp1; [|done].
  apply perform_spec in Hp1 as [(Hv1&Hh1&_) Hp1]. cbn [performed] in Hp1.
  assert (E1 : w_arc w1 = goto i XLoadS (set_weak usize_max (goto i XLock (w_arc w))) /\ w_strong w1 = w_strong w).
  { destruct Hp1 as [[(m&c1&Hm&Ht&Hgo&_) (m'&c1'&Hm'&Hgo'&E)]|(m&m'&Hm&Hgo&Hne&(_&_&_&Hst)&_)].
    - exfalso. simpl in Hm, Ht, Hm'. rewrite Hm in Hm'. injection Hm' as <-. apply lookup_lt_Some in Hm as Hml.
      assert (Em : m_val m = 0).
      { rewrite (last_val LWeak w t1 m Hsh Hm) by (simpl; lia). done. }
      simpl in Hgo'. rewrite list_lookup_insert in Hgo' by done. rewrite Em in Hgo'. simpl in Hgo'.
      unfold mem_ok in Hgo'. simpl in Hgo'. rewrite Hf in Hgo'. simpl in Hgo'. injection Hgo' as <-. simpl in E. by rewrite Em in E.
    - simpl in Hm. pose proof (last_val' LWeak w m Hsh Hm) as Em. simpl in Em. rewrite Hw in Em.
      rewrite Em in Hgo. simpl in Hgo. rewrite list_lookup_insert in Hgo by done. simpl in Hgo.
      unfold mem_ok in Hgo. simpl in Hgo. rewrite Hf in Hgo. simpl in Hgo. injection Hgo as <-.
      split; [|exact Hst]. unfold goto, set_h, set_hs, set_weak. simpl. done. }
  destruct E1 as [Ea1 Es1].
  cbn [mbind option_bind] in Hrun. unfold wstep at 1 in Hrun. cbn [set_hv w_arc w_hv] in Hrun. rewrite Ea1 in Hrun.
  assert (Hi2 : a_hs (goto i XLoadS (set_weak usize_max (goto i XLock (w_arc w)))) !! i = Some (AHandle XLoadS [])).
  { simpl. rewrite list_lookup_insert; [done|]. by rewrite insert_length. }
  rewrite Hi2 in Hrun. cbn [mbind option_bind h_ex action_x fence_x fenced] in Hrun.
  rewrite Hh1 in Hrun. cbn [set_arc w_hv] in Hrun.
  rewrite list_lookup_insert in Hrun by done. cbn [mbind option_bind hv_own fenced] in Hrun.
  destruct (perform _ t2 _ _ _) as [[tv2 w2]|] eqn:Hp2; [|done].
  apply perform_spec in Hp2 as [(Hv2&Hh2&_) Hp2]. cbn [performed] in Hp2.
  destruct Hp2 as (m&c2&Hm&Ht&Hgo&Ea2&_). simpl in Hm, Ht. rewrite Es1 in Hm. apply lookup_lt_Some in Hm as Hml.
  assert (Em : m_val m = 1).
  { rewrite (last_val LStrong w t2 m Hsh Hm); [done|]. destruct Hv1 as (Hv1&_). simpl in Hv1 |- *. lia. }
  cbn [set_hv w_arc] in Hgo, Ea2. rewrite Ea1 in Hgo, Ea2. rewrite Em in Hgo. simpl in Hgo.
  rewrite list_lookup_insert in Hgo by (by rewrite insert_length). simpl in Hgo.
  unfold mem_ok in Hgo. simpl in Hgo. rewrite Hf in Hgo. simpl in Hgo. injection Hgo as <-.
  (* the unlock *)
  cbn [mbind option_bind] in Hrun. unfold wstep in Hrun. cbn [set_hv w_arc w_hv] in Hrun. rewrite Ea2 in Hrun. simpl in Hrun.
  assert (Hi3 : <[i := AHandle (XUnlock (1 =? 1)) []]> (<[i := AHandle XLoadS []]> (<[i := AHandle XLock []]> (a_hs (w_arc w)))) !! i
    = Some (AHandle (XUnlock true) [])) by (rewrite list_lookup_insert; [done|by rewrite !insert_length]).
  rewrite Hi3 in Hrun. cbn [mbind option_bind] in Hrun.
  assert (Hl3 : (i < length (w_hv w2))%nat) by (rewrite Hh2; simpl; rewrite ?Hh1; simpl; by rewrite !insert_length).
  rewrite (list_lookup_insert (w_hv w2)) in Hrun by done. cbn [mbind option_bind] in Hrun.
  simpl in Hrun. rewrite Ea2 in Hrun. simpl in Hrun. rewrite Hi3 in Hrun. simpl in Hrun.
  unfold mem_ok in Hrun. simpl in Hrun. rewrite Hf in Hrun. simpl in Hrun. injection Hrun as <-. simpl.
  split; [|done]. rewrite list_lookup_insert; [done|]. by rewrite !insert_length.
Qed.
Lemma x_C94_get_mut_ex : forall (PR : Profile), exists w,
  ord_reached 5 (o_back ++ [WCount 0 LStrong 2; WCount 0 LWeak 0]) w /\ happened is_lost (w_arc w) = 0 /\
  a_hs (w_arc w) = [held; gone] /\ knows_counts 0 w /\ a_strong (w_arc w) = 1 /\ a_weak (w_arc w) = 0.
Proof.
  intros PR. eexists. split; [split; [done|vm_compute; reflexivity]|]. split; [done|]. split; [done|].
  split; [|done]. eexists. split; [done|]. done.
Qed.

(** *** C95: the runs of [ArcModel] *)
Lemma p_C95_interleavings : forall (PR : Profile) (T : Type) (x : T) ls c,
  arun ls (arc_init x) = Some c ->
  exists ls' w, wrun ls' (w_init x) = Some w /\ w_arc w = c /\ (length ls' <= 2 * length ls)%nat.
Proof. intros PR T x ls c H. exact (sc_run ls (w_init x) c (NW_init x) H). Qed.
Lemma x_C95_interleavings_ex : forall (PR : Profile), exists c w,
  arun (s_clone 0 ++ [LCounts 1] ++ s_drop_one 1) (arc_init 5) = Some c /\
  wrun [w0 (LBeginS 0 CClone); WStep (LSh 0 0 false) 0; w0 (LSh 0 0 false); WCount 1 LStrong 1; WCount 1 LWeak 0;
        w0 (LBeginX 1 CDrop); WStep (LEx 1 false) 1] (w_init 5) = Some w /\
  w_arc w = c /\ a_log c = [ACloneOk; AStrong 2; AWeakCount 0].
Proof.
  intros PR. eexists _, _. split; [vm_compute; reflexivity|]. split; [vm_compute; reflexivity|]. done.
Qed.
(** Not conversely: there are runs in which a count is read that is not the present one. *)
Lemma x_C95_more_ex : forall (PR : Profile), exists w,
  wrun (o_back ++ [WCount 0 LStrong 1]) (w_init 5) = Some w /\
  a_log (w_arc w) = [ACloneOk; AStrong 2] /\ a_hs (w_arc w) = [held; gone] /\ a_strong (w_arc w) = 1.
Proof. intros PR. eexists. split; [vm_compute; reflexivity|]. done. Qed.

(** *** C96: without [make_mut] *)
Lemma p_C96_plain : forall (PR : Profile) (T : Type) (x : T) ls w,
  ord_reached x ls w -> w_plain ls ->
  race_free w /\ happened is_bad (w_arc w) = 0 /\ happened is_destroy (w_arc w) + happened is_out (w_arc w) <= 1 /\
  happened is_free (w_arc w) <= 1.
Proof.
  intros PR T x ls w Hr Hp. destruct (w_plain_run x ls w (proj2 Hr) Hp) as [_ H0].
  split; [by eapply p_C92_race_free_partial|]. by eapply p_C93_safe_partial.
Qed.
Lemma p_C96_released : forall (PR : Profile) (T : Type) (x : T) ls w,
  ord_reached x ls w -> w_plain ls -> w_tidy ls -> all_gone (w_arc w) -> happened is_clone_panic (w_arc w) = 0 ->
  happened is_destroy (w_arc w) + happened is_out (w_arc w) = 1 /\ happened is_free (w_arc w) = 1.
Proof.
  intros PR T x ls w Hr Hp Ht Hg Hc. destruct (w_plain_run x ls w (proj2 Hr) Hp) as [_ H0].
  destruct (w_tidy_run x ls w (proj2 Hr) Hp Ht) as [_ Hu]. apply untidy_0 in Hu as (H1&H2&H3).
  destruct (p_C93_last_handle_partial PR T x ls w Hr H0 Hg H2 Hc) as (G1&G2&G3). split; [done|].
  apply G3. by apply G2.
Qed.
Lemma x_C96_ex : forall (PR : Profile), exists w,
  ord_reached 5 o_two w /\ w_plain o_two /\ w_tidy o_two /\ all_gone (w_arc w) /\ happened is_clone_panic (w_arc w) = 0.
Proof.
  intros PR. eexists. split; [split; [done|vm_compute; reflexivity]|].
  split; [|split; [split; [|split]|split; [by repeat constructor|done]]];
    intros i t Hi; repeat (apply elem_of_cons in Hi as [Hi|Hi]; [discriminate Hi|]); by apply elem_of_nil in Hi.
Qed.
