(** Every step keeps the invariant of [UrcOrdProofs3]. *)
From Verif Require Export UrcOrdProofs3.
From Coq Require Import ZifyBool ZifyNat ZifyN.

Section ord_step.
  Context {PR : Profile} {T : Type}.
  Notation conf := (uconf T).
  Notation xconf := (xconf T).
  Implicit Types (c : conf) (w : xconf) (h : uhandle) (tv : tview) (l : ulabel T) (f : nat) (x : fence).

  (** *** What the actions are *)
  Lemma act_write l p : action_l l p = APlain KWrite -> (exists i y, l = LEndMut i y) \/ zpath p = true.
  Proof.
    destruct l as [i []|i k|i flag|i y|i|i|i]; simpl; try done; [|by left; eauto]. destruct p; try done; by right.
  Qed.
  Lemma act_free l p : action_l l p = APlain KFree -> zpath p = true.
  Proof. destruct l as [i []|i k|i flag|i y|i|i|i]; simpl; try done. by destruct p. Qed.
  Lemma act_store l p o : action_l l p = AStore LStrong o -> zpath p = true.
  Proof. destruct l as [i []|i k|i flag|i y|i|i|i]; simpl; try done. by destruct p. Qed.
  Lemma act_rmw l p o fo : action_l l p = ARmw LStrong o fo ->
    exists i flag, l = LStep i flag /\ ((p = UDSub /\ o = Release) \/ sc p = true).
  Proof.
    destruct l as [i []|i k|i flag|i y|i|i|i]; simpl; try done. intros H. exists i, flag. split; [done|].
    destruct p; try discriminate H; try (by right). left. by injection H as <- _.
  Qed.
  Lemma act_read l c h c' : u_hs c !! who l = Some h -> ustep l c = Some c' -> action_l l (u_pc h) = APlain KRead ->
    sc (u_pc h) = true /\ idle (u_fence h) c = true /\ sole_sf (u_pc h) = false.
  Proof.
    intros Hi Hst Ha. destruct h as [f p]. destruct l as [i []|i k|i flag|i y|i|i|i]; simpl in *; try done; rewrite Hi in Hst.
    - destruct p; try done. by destruct (idle f c).
    - destruct p; try done. unfold step in Hst. simpl in Hst. by destruct (idle f c).
  Qed.
  Lemma act_end i y c h c' : u_hs c !! i = Some h -> ustep (LEndMut i y) c = Some c' -> u_pc h = UMut.
  Proof. intros Hi Hst. destruct h as [f p]. simpl in Hst. rewrite Hi in Hst. by destruct p. Qed.

  (** How a handle comes to be the only one. *)
  Lemma to_sole l c c' h f p :
    ustep l c = Some c' -> u_hs c !! who l = Some h -> zpath (u_pc h) = false ->
    u_hs c' !! who l = Some (UH f p) -> sole_sf p = true ->
    sole_sf (u_pc h) = true \/ (action_l l (u_pc h) = ALoad LStrong Acquire /\ u_sf c = 1 /\ sc (u_pc h) = true).
  Proof.
    intros Hst Hi Hz Hi' Hs. destruct h as [f0 p0]. apply lookup_lt_Some in Hi as Hlt.
    destruct l as [i k|i k|i flag|i y|i|i|i]; simpl in *; rewrite Hi in Hst.
    - destruct p0; try done. destruct (idle f0 c); [|done]. injection Hst as <-. exfalso. revert Hi'.
      assert (E : forall p', <[i := UH f0 p']> (u_hs c) !! i = Some (UH f0 p')) by (intros; by apply list_lookup_insert).
      unfold call1, with_fence, checked, inc_strong, inc_weak, add_h, goto. destruct k; simpl;
        repeat case_match; simpl; intros Hi'; rewrite ?E, ?Hi in Hi'; try (by injection Hi' as <- <-);
        apply lookup_app_Some in Hi' as [Hi'|[Hl _]]; simpl in *; try lia; rewrite Hi in Hi'; by injection Hi' as <- <-.
    - destruct p0; try done. destruct (idle f0 c); [|done]. injection Hst as <-. exfalso. simpl in Hi'.
      rewrite list_lookup_insert in Hi' by done. injection Hi' as <- <-. by destruct k.
    - assert (E : forall p', <[i := UH f0 p']> (u_hs c) !! i = Some (UH f0 p')) by (intros; by apply list_lookup_insert).
      destruct p0; try done; try (by left); unfold step in Hst; simpl in Hst.
      9: { destruct (idle f0 c); [|done]. injection Hst as <-. exfalso. revert Hi'. unfold checked. 
            repeat case_match; simpl; intros Hi'; rewrite ?E, ?Hi in Hi'; by injection Hi' as <- <-. }
      all: injection Hst as <-; revert Hi'; unfold with_fence, checked, dec_strong, dec_weak, free_fence, drop_in_place;
        repeat case_match; simpl; intros Hi'; rewrite ?E, ?Hi in Hi'; simplify_eq; try done.
      all: try (right; split; [done|]; split; [lia|done]).
      all: apply lookup_app_Some in Hi' as [Hi'|[Hl _]]; [|simpl in Hl; rewrite insert_length in Hl; lia];
        rewrite E in Hi'; by injection Hi' as <- <-.
    - destruct p0; try done. by left.
    - destruct p0; try done. injection Hst as <-. exfalso. revert Hi'. unfold with_fence. repeat case_match; simpl; intros Hi';
        rewrite ?list_lookup_insert, ?Hi in Hi' by done; by injection Hi' as <- <-.
    - destruct p0; try done. destruct (idle f0 c); [|done]. injection Hst as <-. simpl in Hi'.
      rewrite list_lookup_insert in Hi' by done. by injection Hi' as <- <-.
    - destruct p0; try done. injection Hst as <-. simpl in Hi'.
      rewrite list_lookup_insert in Hi' by done. by injection Hi' as <- <-.
  Qed.
  (** The decrement is over. *)
  Lemma from_dsub l c c' f : ustep l c = Some c' -> u_hs c !! who l = Some (UH f UDSub) -> exists flag, l = LStep (who l) flag.
  Proof.
    intros Hst Hi. destruct l as [i k|i k|i flag|i y|i|i|i]; simpl in *; rewrite Hi in Hst; try done. by eexists.
  Qed.

  (** Only read-modify-write operations and stores change the counters. *)
  Lemma other_counter l c c' h k :
    ustep l c = Some c' -> u_hs c !! who l = Some h ->
    (forall o, action_l l (u_pc h) <> AStore k o) -> (forall o fo, action_l l (u_pc h) <> ARmw k o fo) ->
    counter k c' = counter k c.
  Proof.
    intros Hst Hi Hs Hr. destruct h as [f0 p0].
    destruct l as [i q|i q|i flag|i y|i|i|i]; simpl in *; rewrite Hi in Hst.
    - destruct p0; try done. destruct (idle f0 c); [|done]. injection Hst as <-. destruct q, k; simpl;
        unfold with_fence, checked, inc_strong, inc_weak; repeat case_match; done.
    - destruct p0; try done. destruct (idle f0 c); [|done]. injection Hst as <-. by destruct k.
    - destruct p0; try done; unfold step in Hst; simpl in Hst, Hs, Hr;
        destruct k; try (exfalso; by eapply Hs); try (exfalso; by eapply Hr).
      all: repeat (case_match; try done); simplify_eq; unfold with_fence, checked, dec_strong, dec_weak, free_fence, drop_in_place;
        repeat case_match; simplify_eq; done.
    - destruct p0; try done. injection Hst as <-. destruct k; unfold checked; by case_match.
    - destruct p0; try done. injection Hst as <-. destruct k; unfold with_fence; repeat case_match; done.
    - destruct p0; try done. destruct (idle f0 c); [|done]. injection Hst as <-. by destruct k.
    - destruct p0; try done. injection Hst as <-. by destruct k.
  Qed.
  Lemma wsub_ne v : wsub v 1 <> v.
  Proof.
    unfold wsub. change (2 ^ 64) with 18446744073709551616. intros Hw.
    destruct (N.eq_dec v 0) as [E|E]; [by rewrite E in Hw|].
    replace (v + 18446744073709551616 - 1) with (v - 1 + 1 * 18446744073709551616) in Hw by lia.
    rewrite N.mod_add in Hw by done.
    pose proof (N.mod_le (v - 1) 18446744073709551616 ltac:(done)). lia.
  Qed.
  Lemma counter_other (k k0 : loc) v c : k <> k0 -> counter k (set_counter k0 v c) = counter k c.
  Proof. by destruct k, k0. Qed.
  Lemma counter_same k v c : counter k (set_counter k v c) = v.
  Proof. by destruct k. Qed.

  Lemma XI_step n l t w w' :
    XI n w -> n + 8 <= usize_max -> xstep l t w = Some w' -> happened is_zeroing (x_urc w') = 0 -> XI (n + 1) w'.
  Proof.
    intros HX Hn Hst Hz. pose proof (XI_urc n l t w w' HX Hn Hst Hz) as HI'. pose proof (xi_u _ _ HX) as HI.
    apply xstep_inv in Hst as (h&tv&tv'&w1&Hi&Hv&Hpf&Eu&Es&Ew&Et&Ev).
    apply perform_spec in Hpf as [(Hle0&_&Htr&_&Hnew) Hp].
    set (tvf := fenced (fence_l l (u_pc h)) tv) in *.
    assert (Hlef : vle (t_cur tv) (t_cur tvf)) by apply fenced_le.
    assert (Hle : vle (t_cur tv) (t_cur tv')) by (by eapply vle_trans).
    destruct (performed_step _ _ _ _ _ _ _ Hp) as (c0&c1&Hgo&Eh0&Ef0&El0&Eh1&Ef1&El1).
    rewrite <- Eu in Eh1, Ef1, El1.
    destruct (i_h _ _ HI _ _ Hi) as [Hfl Hzp]. set (f := u_fence h) in *.
    assert (Hi0 : u_hs c0 !! who l = Some h) by (by rewrite Eh0).
    pose proof (ustep_fences _ _ _ _ Hgo Hi0 Hzp) as Hfs. rewrite Ef0, <- Ef1, <- Eh1 in Hfs.
    assert (HA' : A c1 = A (x_urc w')) by (unfold A; by rewrite !(hap_eq _ c1 (x_urc w')) by done).
    rewrite HA' in Hfs.
    assert (HA : A (x_urc w) <= A (x_urc w')).
    { rewrite <- HA'. transitivity (A c0); [unfold A; by rewrite !(hap_eq _ c0 (x_urc w)) by done|]. by eapply ustep_A. }
    pose proof (xi_len _ _ HX) as HL.
    assert (Hlen : length (x_fv w') = length (u_fences (x_urc w'))).
    { rewrite Ev. destruct Hfs as [E|[(x&x'&_&_&E&_)|[E _]]]; rewrite E, ?insert_length, ?app_length; simpl.
      - rewrite Nat.ltb_irrefl, insert_length. done.
      - rewrite Nat.ltb_irrefl, insert_length. done.
      - rewrite (proj2 (Nat.ltb_lt _ _)) by lia. rewrite app_length, insert_length. simpl. lia. }
    (* old views *)
    assert (Hown : x_fv w' !! f = Some tv').
    { rewrite Ev. destruct (_ <? _)%nat; [apply lookup_app_l_Some|]; apply list_lookup_insert; by rewrite HL. }
    assert (Hoth : forall g tvg, g <> f -> x_fv w !! g = Some tvg -> x_fv w' !! g = Some tvg).
    { intros g tvg Hg Hx. rewrite Ev. destruct (_ <? _)%nat; [apply lookup_app_l_Some|]; by rewrite list_lookup_insert_ne. }
    assert (Hkeep : forall e g, seen w e g -> seen w' e g).
    { intros e g (tvg&Hg&He). destruct (decide (g = f)) as [->|Hne].
      - rewrite Hv in Hg. injection Hg as <-. exists tv'. split; [done|]. by eapply vle_in.
      - exists tvg. split; [by apply Hoth|done]. }
    (* where the views of open fences come from *)
    assert (Hsrc : forall g tvg, is_open (x_urc w') g -> x_fv w' !! g = Some tvg ->
      exists g0 tv0, is_open (x_urc w) g0 /\ x_fv w !! g0 = Some tv0 /\ vle (t_cur tv0) (t_cur tvg) /\
        ((g0 = g /\ g <> f /\ tv0 = tvg) \/ (g0 = f /\ t_cur tvg = t_cur tv'))).
    { intros g tvg (y&Hy&Fy) Hg. destruct Hfs as [E|[(x&x'&Hx&Fx&E&_)|[E Epc]]]; rewrite E in Hy.
      - destruct (decide (g = f)) as [->|Hne].
        + rewrite Hown in Hg. injection Hg as <-. exists f, tv. split; [by exists y|]. split; [done|]. split; [done|]. by right.
        + apply lookup_lt_Some in Hy as Hyl. rewrite <- HL in Hyl. destruct (lookup_lt_is_Some_2 _ _ Hyl) as [tvo Ho].
          pose proof (Hoth _ _ Hne Ho) as H. rewrite H in Hg. injection Hg as <-.
          exists g, tvo. split; [by exists y|]. split; [done|]. split; [apply vle_refl|]. by left.
      - destruct (decide (g = f)) as [->|Hne].
        + rewrite Hown in Hg. injection Hg as <-. exists f, tv. split; [by exists x|]. split; [done|]. split; [done|]. by right.
        + rewrite list_lookup_insert_ne in Hy by done. apply lookup_lt_Some in Hy as Hyl. rewrite <- HL in Hyl.
          destruct (lookup_lt_is_Some_2 _ _ Hyl) as [tvo Ho].
          pose proof (Hoth _ _ Hne Ho) as H. rewrite H in Hg. injection Hg as <-.
          exists g, tvo. split; [by exists y|]. split; [done|]. split; [apply vle_refl|]. by left.
      - assert (Hof : is_open (x_urc w) f) by (eapply open_of; [done|exact Hi|by rewrite Epc]).
        apply lookup_app_Some in Hy as [Hy|[Hge Hy]].
        + destruct (decide (g = f)) as [->|Hne].
          * rewrite Hown in Hg. injection Hg as <-. exists f, tv. split; [by exists y|]. split; [done|]. split; [done|]. by right.
          * apply lookup_lt_Some in Hy as Hyl. rewrite <- HL in Hyl. destruct (lookup_lt_is_Some_2 _ _ Hyl) as [tvo Ho].
            pose proof (Hoth _ _ Hne Ho) as H. rewrite H in Hg. injection Hg as <-.
            exists g, tvo. split; [by exists y|]. split; [done|]. split; [apply vle_refl|]. by left.
        + exists f, tv. split; [done|]. split; [done|].
          rewrite Ev, E, app_length in Hg. simpl in Hg. rewrite (proj2 (Nat.ltb_lt _ _)) in Hg by lia.
          apply lookup_app_Some in Hg as [Hg|[_ Hg]].
          * apply lookup_lt_Some in Hg. rewrite insert_length in Hg. lia.
          * apply list_lookup_singleton_Some in Hg as [_ <-]. split; [done|]. by right. }
    (* what becomes of open fences *)
    assert (Hopen : forall g, is_open (x_urc w) g -> A (x_urc w') = 0 ->
      is_open (x_urc w') g \/ (g = f /\ u_hs (x_urc w') !! who l = Some (UH f UDSub))).
    { intros g (y&Hy&Fy) HA0. destruct Hfs as [E|[(x&x'&Hx&Fx&E&Hd)|[E _]]].
      - left. exists y. by rewrite E.
      - destruct (decide (g = f)) as [->|Hne].
        + destruct Hd as [Hd|[Hd|Hd]]; [|by right|done]. left. exists x'. rewrite E. split; [by apply list_lookup_insert|done].
        + left. exists y. rewrite E. by rewrite list_lookup_insert_ne.
      - left. exists y. rewrite E. split; [by apply lookup_app_l_Some|done]. }
    (* the history of [strong_fence] *)
    assert (Hhist : (x_strong w' = x_strong w /\ u_pc h <> UDSub) \/
      exists m m', last (x_strong w) = Some m /\ x_strong w' = x_strong w ++ [m'] /\ vle (m_view m) (m_view m') /\
        (length (x_strong w) <= v_strong (t_cur tv'))%nat /\
        ((u_pc h = UDSub /\ vle (t_cur tv') (m_view m')) \/ (u_pc h <> UDSub /\ is_open (x_urc w) f))).
    { assert (Hdd : u_pc h = UDSub -> action_l l (u_pc h) = ARmw LStrong Release Relaxed).
      { intros E. destruct h as [fh p]. simpl in E. subst p. destruct (from_dsub _ _ _ _ Hgo Hi0) as [flag ->]. done. }
      destruct (action_l l (u_pc h)) as [|k o|k o fo|k o|k] eqn:Ea; simpl in Hp.
      - destruct Hp as (_&E&_). left. split; [by rewrite Es|]. intros E'. by specialize (Hdd E').
      - destruct Hp as (m&c2&_&_&_&_&E&_). left. split; [by rewrite Es|]. intros E'. by specialize (Hdd E').
      - destruct Hp as [[(m&c2&Hm2&_&Hgo2&_&E&_) (m3&c3&Hm3&Hgo3&Ec3)]|(m&m'&Hm&_&_&(Hh&_&Hps&Hot)&Hmm&Hrel&_)].
        + left. split; [by rewrite Es|]. intros E'. specialize (Hdd E'). injection Hdd as -> -> ->.
          destruct h as [fh p]. simpl in E'. subst p. destruct (from_dsub _ _ _ _ Hgo Hi0) as [flag El].
          rewrite El in Hgo3. simpl in Hgo3, Ec3. rewrite Hi in Hgo3. unfold step in Hgo3. simpl in Hgo3.
          unfold checked in Hgo3. change (mem_ok (set_sf (m_val m3) (x_urc w))) with (mem_ok (x_urc w)) in Hgo3.
          rewrite (inv_mem _ _ HI) in Hgo3. apply (wsub_ne (m_val m3)). transitivity (u_sf c3); [|done].
          destruct (m_val m3 =? 1); injection Hgo3 as <-; done.
        + destruct k; simpl in *; [|left; split; [by rewrite Es|intros E'; by specialize (Hdd E')]].
          right. exists m, m'. split; [done|]. split; [by rewrite Es|].
          split; [done|]. split; [done|].
          destruct (act_rmw _ _ _ _ Ea) as (i&flag&_&[[E ->]|E]); [left; split; [done|by apply Hrel]|].
          right. split; [intros E'; by rewrite E' in E|]. eapply open_of; [done|exact Hi|by rewrite E].
      - destruct k; [exfalso; by rewrite (act_store _ _ _ Ea) in Hzp|]. destruct Hp as (_&m'&_&_&_&E). left.
        split; [by rewrite Es|]. intros E'. by specialize (Hdd E').
      - destruct Hp as (_&E&_). left. split; [by rewrite Es|]. intros E'. by specialize (Hdd E'). }
    assert (Hlast' : forall k m, last (hist k w') = Some m -> m_val m = counter k (x_urc w')).
    { intros k m Hm. rewrite Eu. replace (hist k w') with (hist k w1) in Hm by (by destruct k).
      pose proof (xi_last _ _ HX) as HL0.
      assert (Hld : forall k0 o, (forall o1, action_l l (u_pc h) <> AStore k o1) \/ k0 = k ->
        (forall o1 q1, action_l l (u_pc h) <> ARmw k o1 q1) \/ k0 = k ->
        loaded k0 o t tvf w (ustep l) tv' w1 -> m_val m = counter k (x_urc w1)).
      { intros k0 o Ha1 Ha2 (m0&c2&_&_&Hgo2&E&E1&E2&_). replace (hist k w1) with (hist k w) in Hm by (by destruct k).
        rewrite (HL0 _ _ Hm), E. assert (Hd : {k = k0} + {k <> k0}) by decide equality. destruct Hd as [->|Hd].
        - by rewrite counter_same.
        - rewrite counter_other by done. destruct Ha1 as [Ha1|?]; [|done]. destruct Ha2 as [Ha2|?]; [|done].
          rewrite (other_counter _ _ _ h k Hgo2); [by rewrite counter_other|by rewrite hs_set_counter|done|done]. }
      destruct (action_l l (u_pc h)) as [|k0 o|k0 o fo|k0 o|k0] eqn:Ea; simpl in Hp.
      - destruct Hp as (Hgo2&E1&E2). replace (hist k w1) with (hist k w) in Hm by (by destruct k). rewrite (HL0 _ _ Hm).
        symmetry. eapply (other_counter _ _ _ h k Hgo2); [done| |]; by rewrite Ea.
      - eapply (Hld k0 o); [by left|by left|done].
      - assert (Hd : {k0 = k} + {k0 <> k}) by decide equality.
        destruct Hp as [[Hp _]|(m0&m'&Hm0&Hgo2&_&(Hh&Hv'&_&Hot)&_)].
        + eapply (Hld k0 fo); [by left| |done]. destruct Hd as [->|Hd]; [by right|]. left. intros o1 q1 [= ? _ _]. done.
        + destruct Hd as [->|Hd].
          * rewrite Hh in Hm. rewrite last_snoc in Hm. by injection Hm as <-.
          * replace (hist k w1) with (hist k w) in Hm by (by destruct k, k0). rewrite (HL0 _ _ Hm).
            rewrite (other_counter _ _ _ h k Hgo2).
            -- by rewrite counter_other.
            -- by rewrite hs_set_counter.
            -- by rewrite Ea.
            -- rewrite Ea. intros o1 q1 [= ? _ _]. done.
      - assert (Hd : {k0 = k} + {k0 <> k}) by decide equality. destruct Hp as (Hgo2&m'&Hh&Hv'&_&Hot).
        destruct Hd as [->|Hd].
        + rewrite Hh in Hm. rewrite last_snoc in Hm. by injection Hm as <-.
        + replace (hist k w1) with (hist k w) in Hm by (by destruct k, k0). rewrite (HL0 _ _ Hm).
          rewrite (other_counter _ _ _ h k Hgo2); [done|done| |by rewrite Ea]. rewrite Ea. intros o1 [= ? _]. done.
      - destruct Hp as (Hgo2&E1&E2). replace (hist k w1) with (hist k w) in Hm by (by destruct k). rewrite (HL0 _ _ Hm).
        symmetry. eapply (other_counter _ _ _ h k Hgo2); [done| |]; by rewrite Ea. }
    (* the access *)
    assert (Hentry : forall e a, x_trace w' !! e = Some a ->
      x_trace w !! e = Some a \/ (e = length (x_trace w) /\ seen w' e f /\ ac_before a = v_seen (t_cur tvf) /\
        ac_kind a <> KFree /\
        (value_access a -> is_open (x_urc w) f) /\ (ac_kind a = KWrite -> u_pc h = UMut))).
    { intros e a He. rewrite Et, Htr in He. apply lookup_app_Some in He as [He|[Hge He]]; [by left|]. right.
      destruct (kind_of (action_l l (u_pc h))) as [k|] eqn:Ek; simpl in He; [|done].
      apply list_lookup_singleton_Some in He as [He <-]. assert (e = length (x_trace w)) as -> by lia. simpl.
      split; [done|]. split; [exists tv'; split; [done|by apply Hnew]|]. split; [done|].
      destruct (action_l l (u_pc h)) as [|k0 o|k0 o fo|k0 o|k0] eqn:Ea; simpl in Ek; try discriminate Ek; injection Ek as <-; simpl.
      1-3: split; [done|]; split; [intros [?|?]; done|done].
      assert (Hww : k0 = KWrite -> u_pc h = UMut).
      { intros ->. destruct (act_write _ _ Ea) as [(i&y&El)|Hz']; [|by rewrite Hz' in Hzp]. subst l.
        simpl in Hi0. by eapply act_end. }
      split; [intros ->; by rewrite (act_free _ _ Ea) in Hzp|]. split; [|done].
      intros [E|E]; simpl in E; subst k0.
      - eapply open_of; [done|exact Hi|]. destruct (act_read _ _ _ _ Hi0 Hgo Ea) as (E&_). by rewrite E.
      - eapply open_of; [done|exact Hi|]. by rewrite Hww. }
    assert (Hmutopen : sole_sf (u_pc h) = true -> is_open (x_urc w) f).
    { intros E. eapply open_of; [done|exact Hi|]. by destruct (u_pc h). }
    constructor; try done.
    - (* xi_pos *)
      intros g tvg t0 m Hg Hvg Hm Ht Hlt. destruct (Hsrc _ _ Hg Hvg) as (g0&tv0&Ho0&Hv0&Hle1&Hor).
      destruct Hhist as [[E _]|(m0&m'&Hm0&E&_&Hps&Hwho)]; rewrite E in Hm, Hlt.
      + eapply (xi_pos _ _ HX g0 tv0); try done. destruct Hle1 as (Hx1&_). lia.
      + rewrite app_length in Hlt. simpl in Hlt. rewrite lookup_app_l in Hm by lia.
        destruct Hor as [(->&Hne&->)|(->&Ecur)]; [|rewrite Ecur in Ht; lia].
        destruct (decide (S t0 < length (x_strong w))%nat) as [Hs|Hs].
        * eapply (xi_pos _ _ HX g tvg); try done.
        * assert (Hl0 : last (x_strong w) = Some m).
          { rewrite last_lookup. replace (Nat.pred (length (x_strong w))) with t0 by lia. done. }
          rewrite (xi_last _ _ HX LStrong _ Hl0). simpl. destruct Hwho as [[Ep _]|[_ Hof]].
          -- eapply (open_pend n _ g _ h HI Ho0 Hi). by rewrite Ep.
          -- by eapply (two_open n _ g f).
    - (* xi_wr *)
      intros g e a Hg He Ha. destruct (lookup_lt_is_Some_2 (x_fv w') g) as [tvg Hvg].
      { destruct Hg as (y&Hy&_). apply lookup_lt_Some in Hy. by rewrite Hlen. }
      destruct (Hsrc _ _ Hg Hvg) as (g0&tv0&Ho0&Hv0&Hle1&Hor).
      destruct (Hentry _ _ He) as [He0|(_&(tv1&Hv1&Hin)&_&_&_&Hm)].
      + destruct (xi_wr _ _ HX g0 e a Ho0 He0 Ha) as (tv2&Hv2&Hin). rewrite Hv0 in Hv2. injection Hv2 as <-.
        exists tvg. split; [done|]. by eapply vle_in.
      + specialize (Hm Ha). assert (Hs : u_sf (x_urc w) = 1) by (eapply (i_sole _ _ HI _ _ Hi); by rewrite Hm).
        assert (Hof : is_open (x_urc w) f) by (apply Hmutopen; by rewrite Hm).
        pose proof (sole_open _ _ _ _ HI Hs Ho0 Hof) as ->. destruct Hor as [(<-&Hne&_)|(_&Ec)]; [done|].
        rewrite Hown in Hv1. injection Hv1 as <-. exists tvg. split; [done|]. by rewrite Ec.
    - (* xi_cov *)
      intros HA0 e a He Ha. assert (HA1 : A (x_urc w) = 0) by (clear -HA HA0; lia).
      assert (Hcase : forall g, is_open (x_urc w) g -> seen w' e g ->
        (exists f0, is_open (x_urc w') f0 /\ seen w' e f0) \/
        (exists j h0, u_hs (x_urc w') !! j = Some h0 /\ u_pc h0 = UDSub /\ seen w' e (u_fence h0))).
      { intros g Hg Hse. destruct (Hopen g Hg HA0) as [Ho|[-> Hu]]; [left; by exists g|]. right. by exists (who l), (UH f UDSub). }
      destruct (Hentry _ _ He) as [He0|(_&Hse&_&_&Hof&_)].
      + destruct (xi_cov _ _ HX HA1 e a He0 Ha) as [(g&Hg&Hse)|[(j&h0&Hj&Hp0&Hse)|(m&Hm&Hse)]].
        * destruct (Hcase g Hg (Hkeep _ _ Hse)) as [Hc|Hc]; [by left|by right; left].
        * destruct (decide (j = who l)) as [->|Hne].
          -- rewrite Hi in Hj. injection Hj as <-. destruct Hhist as [[_ Hn0]|(m0&m'&_&E&_&_&[[_ Hv0]|[Hn0 _]])]; try done.
             right. right. exists m'. rewrite E, last_snoc. split; [done|].
             destruct Hse as (tv2&Hv2&Hin). fold f in Hv2. rewrite Hv in Hv2. injection Hv2 as <-.
             eapply vle_in; [|exact Hv0]. by eapply vle_in.
          -- right. left. exists j, h0. split; [|split; [done|by apply Hkeep]].
             rewrite Eh1. eapply ustep_hs_old; [exact Hgo|done|]. by rewrite Eh0.
        * right. right. destruct Hhist as [[E _]|(m0&m'&Hm0&E&Hmm&_)].
          -- exists m. by rewrite E.
          -- exists m'. rewrite E, last_snoc. split; [done|]. rewrite Hm0 in Hm. injection Hm as <-. by eapply vle_in.
      + destruct (Hcase f (Hof Ha) Hse) as [Hc|Hc]; [by left|by right; left].
    - (* xi_sole *)
      intros i h' e a Hi' Hs' He Ha. rewrite Eh1 in Hi'. destruct (decide (i = who l)) as [->|Hne].
      + destruct (ustep_who _ _ _ _ Hgo Hi0) as [p Hp']. rewrite Hp' in Hi'. injection Hi' as <-. simpl in Hs' |- *. fold f.
        destruct (Hentry _ _ He) as [He0|(_&Hse&_)]; [|done].
        destruct (to_sole _ _ _ _ _ _ Hgo Hi0 Hzp Hp' Hs') as [Hso|(Ea&Hsf&Hsc)].
        * apply Hkeep. by eapply (xi_sole _ _ HX).
        * assert (Hof : is_open (x_urc w) f) by (eapply open_of; [done|exact Hi|by rewrite Hsc]).
          rewrite Ea in Hp. simpl in Hp. destruct Hp as (m&c2&Hm&Ht&Hgo2&Eu2&_&_&Hacq). simpl in Hm, Ht, Hgo2.
          destruct (sole_sf (u_pc h)) eqn:Hso; [apply Hkeep; by eapply (xi_sole _ _ HX)|].
          assert (Hp2 : u_hs c2 !! who l = Some (UH f p)) by (rewrite <- Eh1, Eu, Eu2 in Hp'; by rewrite hs_set_counter in Hp').
          assert (Hsf2 : m_val m = 1).
          { destruct (to_sole l _ c2 h f p Hgo2 Hi Hzp Hp2 Hs') as [Hx|(_&Hx&_)]; [by rewrite Hso in Hx|done]. }
          assert (Ht' : (v_strong (t_cur tv) <= t)%nat) by (destruct Hlef as (?&_); lia).
          assert (Hl0 : last (x_strong w) = Some m).
          { rewrite last_lookup. apply lookup_lt_Some in Hm as Hlt. destruct (decide (S t < length (x_strong w))%nat) as [Hs|Hs].
            - pose proof (xi_pos _ _ HX f tv t m Hof Hv Hm Ht' Hs). lia.
            - replace (Nat.pred (length (x_strong w))) with t by lia. done. }
          assert (Hs : u_sf (x_urc w) = 1) by (rewrite <- Hsf2; symmetry; apply (xi_last _ _ HX LStrong _ Hl0)).
          specialize (Hacq eq_refl).
          destruct (xi_cov _ _ HX (sole_A _ _ _ HI Hs Hof) e a He0 Ha) as [(g&Hg&Hse)|[(j&h0&Hj&Hp0&_)|(m2&Hm2&Hse)]].
          -- apply Hkeep. by rewrite (sole_open _ _ _ _ HI Hs Hof Hg).
          -- exfalso. eapply (sole_pend' _ _ _ _ _ HI Hs Hof Hj). by rewrite Hp0.
          -- rewrite Hl0 in Hm2. injection Hm2 as <-. exists tv'. split; [done|]. by eapply vle_in.
      + destruct (ustep_hs_new _ _ _ _ _ Hgo Hne Hi') as [Hi2|[Hq|Hq]]; [|by rewrite Hq in Hs'|by rewrite Hq in Hs'].
        rewrite Eh0 in Hi2. destruct (Hentry _ _ He) as [He0|(_&Hse&_&_&Hof&_)].
        * apply Hkeep. by eapply (xi_sole _ _ HX).
        * assert (Hs : u_sf (x_urc w) = 1) by (by eapply (i_sole _ _ HI)).
          assert (Ho2 : is_open (x_urc w) (u_fence h')) by (eapply open_of; [done|exact Hi2|by destruct (u_pc h')]).
          by rewrite (sole_open _ _ _ _ HI Hs Ho2 (Hof Ha)).
    - (* xi_free *)
      intros e a He. destruct (Hentry _ _ He) as [He0|(_&_&_&Hf&_)]; [by eapply (xi_free _ _ HX)|done].
    - (* xi_race *)
      intros e1 e2 a1 a2 Hlt He1 He2 Hc.
      destruct (Hentry _ _ He2) as [He2'|(->&_&Hb&Hf2&Hof&Hm)].
      + destruct (Hentry _ _ He1) as [He1'|(->&_)]; [by eapply (xi_race _ _ HX)|]. apply lookup_lt_Some in He2'. lia.
      + destruct (Hentry _ _ He1) as [He1'|(->&_)]; [|lia]. rewrite Hb.
        pose proof (xi_free _ _ HX _ _ He1') as Hf1.
        assert (Hse : seen w e1 f).
        { destruct (ac_kind a2) eqn:E2; [by destruct (ac_kind a1)| | |done].
          - eapply (xi_wr _ _ HX); [apply Hof; by left|done|]. by destruct (ac_kind a1).
          - eapply (xi_sole _ _ HX _ h); [done|by rewrite Hm|done|]. unfold value_access. destruct (ac_kind a1); try done; tauto. }
        destruct Hse as (tv2&Hv2&Hin). rewrite Hv in Hv2. injection Hv2 as <-. by eapply vle_in.
  Qed.
End ord_step.
