(** Invariant of the [Arc] transition system. *)
From Verif Require Export SpecArc.
From Coq Require Import ZifyBool ZifyNat ZifyN.

Section arc_inv.
  Context {PR : Profile} {T : Type}.
  Notation conf := (aconf T).
  Implicit Types (c : conf) (h : ahandle) (x : xpc).
  Notation one b := (if b : bool then 1 else 0).

  (** Steps after the count was given up. *)
  Definition ending x : bool :=
    match x with
    | XDestroy | XLoadW | XFree | XTake | XULoadW | XUFree | XMTake | XMNew | XDropMoved => true
    | _ => false
    end.
  Definition locks x : bool := match x with XLoadS | XUnlock _ => true | _ => false end.
  Definition lk h : N := one (locks (h_ex h)).
  (** The count was seen to be one. *)
  Definition lone x : bool :=
    match x with XUnlock u => u | XMut | XMInc _ | XMZero => true | XM1 s => s =? 1 | _ => false end.
  Definition held_ok h : Prop := h_ex h <> XHeld -> h_sh h = [].
  Definition live_ok h : Prop := ending (h_ex h) = false /\ held_ok h.

  Notation L c := (happened is_leak c).
  Notation V c := (happened is_weak_made c).

  (** What [make_mut] knows about the weak count [n]. *)
  Definition knows x (n : N) : Prop :=
    match x with XMInc v => v <= n | XMZero => 1 <= n | _ => True end.
  Definition PA c : Prop :=
    a_data c = Alive /\ a_freed c = false /\ a_strong c = owners (a_hs c) + L c /\ 1 <= a_strong c /\
    Forall live_ok (a_hs c) /\ sumN lk (a_hs c) <= 1 /\
    a_weak c = (if sumN lk (a_hs c) =? 0 then V c else usize_max) /\ (sumN lk (a_hs c) <> 0 -> V c = 0) /\
    (forall i h, a_hs c !! i = Some h -> lone (h_ex h) = true -> a_strong c = 1) /\
    (forall i h, a_hs c !! i = Some h -> knows (h_ex h) (V c)) /\
    happened is_destroy c = 0 /\ happened is_out c = 0 /\ happened is_free c = 0 /\
    happened is_drop_panic c = 0.

  Definition stage x : dstate :=
    match x with XDestroy | XTake | XMTake => Alive | XLoadW | XFree => Destroyed | _ => Taken end.

  Definition PB c : Prop :=
    exists i x, a_hs c !! i = Some (AHandle x []) /\ ending x = true /\ alone i c /\
      L c = 0 /\ a_strong c = 0 /\ a_weak c = V c /\ a_freed c = false /\ a_data c = stage x /\
      (x = XFree \/ x = XUFree -> V c = 0) /\
      (x = XMTake \/ x = XMNew \/ x = XDropMoved -> 1 <= V c) /\
      happened is_destroy c = one (match stage x with Destroyed => true | _ => false end) /\
      happened is_out c = one (match stage x with Taken => true | _ => false end) /\
      happened is_free c = 0 /\ happened is_drop_panic c = 0.

  Definition PC c : Prop :=
    all_gone c /\ L c = 0 /\ a_weak c = V c /\ a_data c <> Alive /\
    happened is_destroy c + happened is_out c = 1 /\
    happened is_free c = one (a_freed c) /\
    (a_freed c = true -> V c = 0) /\
    (a_freed c = false -> 1 <= V c \/ happened is_drop_panic c = 1).

  Definition AInv c : Prop := happened is_bad c = 0 /\ happened is_overflow c = 0 /\ (PA c \/ PB c \/ PC c).

  Definition asize c : N := owners (a_hs c) + L c + V c.

  (** *** Facts on handles *)
  Lemma own_0 h : live_ok h -> own h = 0 -> h = gone.
  Proof.
    intros [He Hh] H. unfold own in H. destruct (owns_x (h_ex h)) eqn:E; [lia|].
    destruct h as [x sh]. simpl in *. destruct x; try done; rewrite Hh; done.
  Qed.
  Lemma owner_pos c i h : a_hs c !! i = Some h -> own h <= owners (a_hs c).
  Proof. apply sumN_lookup. Qed.
  Lemma alone_one c i h : Forall live_ok (a_hs c) -> a_hs c !! i = Some h -> 1 <= own h ->
    owners (a_hs c) = 1 -> alone i c /\ own h = 1.
  Proof.
    intros Hl Hi H1 HW. split.
    - intros j h' Hne Hj. apply own_0; [by eapply Forall_lookup_1|].
      pose proof (sumN_two own _ _ _ _ _ Hne Hj Hi) as Hs. unfold owners in HW. lia.
    - pose proof (owner_pos c i h Hi). lia.
  Qed.
  Lemma lone_owns x : lone x = true -> owns_x x = true.
  Proof. by destruct x. Qed.
  Lemma lk_own h : lk h <= one (owns_x (h_ex h)).
  Proof. unfold lk. by destruct h as [[]]. Qed.

  (** *** The log *)
  Lemma hap_say f e c : happened f (say e c) = happened f c + one (f e).
  Proof. unfold happened. simpl. apply cnt_snoc. Qed.

  Lemma hap_strong f n c : happened f (set_strong n c) = happened f c. Proof. done. Qed.
  Lemma hap_weak f n c : happened f (set_weak n c) = happened f c. Proof. done. Qed.
  Lemma hap_val f n c : happened f (set_val n c) = happened f c. Proof. done. Qed.
  Lemma hap_data f n c : happened f (set_data n c) = happened f c. Proof. done. Qed.
  Lemma hap_freed f c : happened f (set_freed c) = happened f c. Proof. done. Qed.
  Lemma hap_hs f n c : happened f (set_hs n c) = happened f c. Proof. done. Qed.
  Lemma hap_h f i n c : happened f (set_h i n c) = happened f c. Proof. done. Qed.
  Lemma hap_goto f i x c : happened f (goto i x c) = happened f c. Proof. done. Qed.
  Lemma hap_sgoto f i h k (x : spc) c : happened f (sgoto i h k x c) = happened f c. Proof. done. Qed.
  Lemma hap_send f i h k c : happened f (send_ i h k c) = happened f c. Proof. done. Qed.

  (** A handle is replaced while the value is alive. *)
  Lemma PA_upd c c' i h h' :
    PA c -> a_hs c !! i = Some h -> 1 <= own h -> live_ok h' ->
    a_hs c' = <[i := h']> (a_hs c) -> a_data c' = Alive -> a_freed c' = false ->
    a_strong c' + own h + L c = a_strong c + own h' + L c' -> 1 <= a_strong c' ->
    sumN lk (a_hs c) + lk h' <= 1 + lk h ->
    a_weak c' = (if sumN lk (a_hs c) + lk h' =? lk h then V c' else usize_max) ->
    (sumN lk (a_hs c) + lk h' <> lk h -> V c' = 0) ->
    (lone (h_ex h') = true -> a_strong c' = 1) ->
    knows (h_ex h') (V c') -> V c <= V c' ->
    happened is_destroy c' = 0 -> happened is_out c' = 0 -> happened is_free c' = 0 ->
    happened is_drop_panic c' = 0 -> PA c'.
  Proof.
    intros (Hd&Hf&Hs&Hp&Hl&HK&Hw&Hz&Hlone&Hinc&E1&E2&E3&E4) Hi Ho Hl' Hhs Hd' Hf' Hs' Hp' HK' Hw' Hz' Hlone' Hinc' HV
      D1 D2 D3 D4.
    pose proof (sumN_insert own _ _ _ h' Hi) as SO. pose proof (sumN_insert lk _ _ _ h' Hi) as SK.
    unfold PA. rewrite Hhs. split; [done|]. split; [done|]. split; [unfold owners in *; lia|].
    split; [done|]. split; [by apply Forall_insert|]. split; [lia|]. split.
    { rewrite Hw'. replace (sumN lk (<[i := h']> (a_hs c)) =? 0) with (sumN lk (a_hs c) + lk h' =? lk h); [done|].
      apply eq_true_iff_eq. rewrite !N.eqb_eq. lia. }
    split; [intros ?; apply Hz'; lia|].
    split; [|split; [|done]].
    - intros j k Hj Hk. destruct (decide (j = i)) as [->|Hne].
      + rewrite list_lookup_insert in Hj by (by eapply lookup_lt_Some). injection Hj as <-. by apply Hlone'.
      + rewrite list_lookup_insert_ne in Hj by done. specialize (Hlone j k Hj Hk).
        pose proof (sumN_two own _ _ _ _ _ Hne Hj Hi) as S2.
        assert (1 <= own k) by (unfold own; rewrite (lone_owns _ Hk); lia). unfold owners in Hs. lia.
    - intros j k Hj. destruct (decide (j = i)) as [->|Hne].
      + rewrite list_lookup_insert in Hj by (by eapply lookup_lt_Some). by injection Hj as <-.
      + rewrite list_lookup_insert_ne in Hj by done. specialize (Hinc _ _ Hj).
        destruct (h_ex k); simpl in *; lia.
  Qed.

  (** A new handle. *)
  Lemma PA_push c c' :
    PA c -> a_hs c' = a_hs c ++ [held] -> a_strong c' = a_strong c + 1 -> a_weak c' = a_weak c ->
    a_data c' = Alive -> a_freed c' = false -> L c' = L c -> V c' = V c ->
    (forall i h, a_hs c !! i = Some h -> lone (h_ex h) = true -> False) ->
    happened is_destroy c' = 0 -> happened is_out c' = 0 -> happened is_free c' = 0 ->
    happened is_drop_panic c' = 0 -> PA c'.
  Proof.
    intros (Hd&Hf&Hs&Hp&Hl&HK&Hw&Hz&Hlone&Hinc&E1&E2&E3&E4) Hhs Hs' Hw' Hd' Hf' HL HV Hno D1 D2 D3 D4.
    unfold PA. rewrite Hhs, Hs', Hw', HL, HV. unfold owners. rewrite !sumN_app. unfold owners in Hs.
    change (sumN own [held]) with 1. change (sumN lk [held]) with 0.
    split; [done|]. split; [done|]. split; [lia|]. split; [lia|].
    split; [apply Forall_app; split; [done|]; constructor; [|constructor]; by split|].
    rewrite !N.add_0_r. split; [done|]. split; [done|]. split; [done|].
    split; [|split; [|done]].
    - intros j k Hj Hk. apply lookup_app_Some in Hj as [Hj|[_ Hj]]; [by destruct (Hno j k)|].
      apply list_lookup_singleton_Some in Hj as [_ <-]. done.
    - intros j k Hj. apply lookup_app_Some in Hj as [Hj|[_ Hj]]; [by eapply Hinc|].
      by apply list_lookup_singleton_Some in Hj as [_ <-].
  Qed.

  Hint Rewrite hap_say hap_strong hap_weak hap_val hap_data hap_freed hap_hs hap_h
    hap_goto hap_sgoto hap_send : hap.
  Ltac hap := autorewrite with hap; simpl; rewrite ?N.add_0_r; try lia.

  (** *** Calls taking [&Arc] *)
  Lemma shared_PA c i h k s flag :
    PA c -> a_hs c !! i = Some h -> h_sh h !! k = Some s -> asize c + 4 <= usize_max ->
    PA (step_shared i h k s flag c) /\ happened is_bad (step_shared i h k s flag c) = happened is_bad c /\
    happened is_overflow (step_shared i h k s flag c) = happened is_overflow c /\
    asize (step_shared i h k s flag c) <= asize c + 1.
  Proof.
    Ltac upd c i h Hoe Hoh Hlk Hlk' Hex :=
      eapply (PA_upd c _ i h); try done; simpl; hap; rewrite ?Hoe, ?Hoh, ?Hlk, ?Hlk', ?N.add_0_r;
      try first [done | lia | by rewrite Hex].
    Ltac siz H sh := unfold asize; hap; specialize (H sh); unfold owners in *; lia.
    intros HPA Hi Hk Hsz. pose proof HPA as (Hd&Hf&Hs&Hp&Hl&HK&Hw&Hz&Hlone&Hinc&E1&E2&E3&E4).
    pose proof (Forall_lookup_1 _ _ _ _ Hl Hi) as [He Hh].
    assert (Hex : h_ex h = XHeld).
    { destruct (h_ex h) eqn:Ex; try done; exfalso.
      all: assert (h_sh h = []) as E by (apply Hh; by rewrite Ex); by rewrite E in Hk. }
    assert (Hown : 1 <= own h) by (unfold own; rewrite Hex; simpl; lia).
    assert (Hm : mem_ok c = true) by (unfold mem_ok; by rewrite Hf).
    assert (Hv : val_ok c = true) by (unfold val_ok; by rewrite Hf, Hd).
    assert (Hlk : lk h = 0) by (unfold lk; by rewrite Hex).
    assert (Hlk' : forall sh, lk (AHandle (h_ex h) sh) = 0) by (intros; unfold lk; simpl; by rewrite Hex).
    assert (Hoe : forall sh, own (AHandle (h_ex h) sh) = 1 + cnt is_clone1 sh).
    { intros. unfold own. simpl. by rewrite Hex. }
    assert (Hoh : own h = 1 + cnt is_clone1 (h_sh h)) by (unfold own; by rewrite Hex).
    assert (Hl' : forall sh, live_ok (AHandle (h_ex h) sh)) by (intros; rewrite Hex; split; [done|by intros ?]).
    assert (Hkw : (sumN lk (a_hs c) + 0 =? 0) = (sumN lk (a_hs c) =? 0)) by (by rewrite N.add_0_r).
    assert (HV : V c <= asize c) by (unfold asize; lia).
    assert (HW : owners (a_hs c) + L c <= asize c) by (unfold asize; lia).
    assert (Hset : forall sh, sumN own (<[i := AHandle (h_ex h) sh]> (a_hs c)) + cnt is_clone1 (h_sh h) =
      owners (a_hs c) + cnt is_clone1 sh).
    { intros sh. pose proof (sumN_insert own _ _ _ (AHandle (h_ex h) sh) Hi) as S.
      rewrite Hoe, Hoh in S. unfold owners. lia. }
    destruct s as [|old| | |v]; simpl.
    - unfold checked. rewrite Hm. pose proof (cnt_insert is_clone1 _ _ _ (SClone1 (a_strong c)) Hk) as Ec.
      simpl in Ec. assert (Hadd : wadd (a_strong c) 1 = a_strong c + 1).
      { unfold wadd. apply N.mod_small. change (2 ^ 64) with (usize_max + 1). lia. }
      rewrite Hadd.
      split; [|split; [done|split; [done|]]].
      + upd c i h Hoe Hoh Hlk Hlk' Hex. 
      + siz Hset (<[k:=SClone1 (a_strong c)]> (h_sh h)).
    - pose proof (cnt_delete is_clone1 _ _ _ Hk) as Ec. simpl in Ec.
      destruct (max_refcount <? old).
      + split; [|split; [by hap|split; [by hap|]]]; [upd c i h Hoe Hoh Hlk Hlk' Hex|]. siz Hset (delete k (h_sh h)).
      + assert (Hnolone : forall j k, a_hs c !! j = Some k -> lone (h_ex k) = true -> False).
        { intros j k' Hj Hkl. pose proof (Hlone j k' Hj Hkl).
          pose proof (owner_pos c i h Hi). lia. }
        (* first the clone in progress is taken away, with the count *)
        pose proof (owner_pos c i h Hi).
        assert (HPA1 : PA (set_strong (a_strong c - 1) (send_ i h k c))) by upd c i h Hoe Hoh Hlk Hlk' Hex.
        split; [|split; [by hap|split; [by hap|]]].
        * eapply (PA_push _ _ HPA1); simpl; hap; try done.
          intros j h' Hj Hlo. destruct (decide (j = i)) as [->|Hne].
          -- rewrite list_lookup_insert in Hj by (by eapply lookup_lt_Some). injection Hj as <-. simpl in Hlo.
             by rewrite Hex in Hlo.
          -- rewrite list_lookup_insert_ne in Hj by done. by eapply Hnolone.
        * unfold asize, owners. hap. rewrite sumN_app. change (sumN own [held]) with 1.
          specialize (Hset (delete k (h_sh h))). unfold owners in *. lia.
    - unfold checked. rewrite Hv. destruct flag; [|split; [done|split; [done|split; [done|lia]]]].
      pose proof (cnt_delete is_clone1 _ _ _ Hk) as Ec. simpl in Ec.
      split; [|split; [by hap|split; [by hap|]]]; [upd c i h Hoe Hoh Hlk Hlk' Hex|]. siz Hset (delete k (h_sh h)).
    - unfold checked. rewrite Hm. pose proof (cnt_insert is_clone1 _ _ _ (SDown (a_weak c)) Hk) as Ec. simpl in Ec.
      split; [|split; [done|split; [done|]]]; [upd c i h Hoe Hoh Hlk Hlk' Hex|]. siz Hset (<[k:=SDown (a_weak c)]> (h_sh h)).
    - unfold checked. rewrite Hm. destruct (v =? usize_max) eqn:Ev.
      + pose proof (cnt_insert is_clone1 _ _ _ (SDown (a_weak c)) Hk) as Ec. simpl in Ec.
        split; [|split; [done|split; [done|]]]; [upd c i h Hoe Hoh Hlk Hlk' Hex|]. siz Hset (<[k:=SDown (a_weak c)]> (h_sh h)).
      + destruct (negb flag && (a_weak c =? v)) eqn:Ew; [|split; [done|split; [done|split; [done|lia]]]].
        apply andb_prop in Ew as [_ Ew]. apply N.eqb_eq in Ew. apply N.eqb_neq in Ev.
        destruct (N.eqb_spec (sumN lk (a_hs c)) 0) as [EK|EK]; [|congruence].
        pose proof (cnt_delete is_clone1 _ _ _ Hk) as Ec. simpl in Ec.
        split; [|split; [by hap|split; [by hap|]]].
        * upd c i h Hoe Hoh Hlk Hlk' Hex. rewrite EK. simpl. lia.
        * siz Hset (delete k (h_sh h)).
  Qed.

  (** *** Calls taking [&mut Arc] or [Arc] *)
  Lemma own_goto x : own (AHandle x []) = one (owns_x x).
  Proof. unfold own. simpl. lia. Qed.
  Lemma lk_goto x : lk (AHandle x []) = one (locks x).
  Proof. done. Qed.
  Lemma alone_sum (f : ahandle -> N) c i h :
    f gone = 0 -> alone i c -> a_hs c !! i = Some h -> sumN f (a_hs c) = f h.
  Proof.
    intros Hg Ha Hi. pose proof (sumN_insert f _ _ _ gone Hi) as S.
    assert (sumN f (<[i := gone]> (a_hs c)) = 0) as Z.
    { apply sumN_zero. apply Forall_lookup. intros j k Hj. destruct (decide (j = i)) as [->|Hne].
      - rewrite list_lookup_insert in Hj by (by eapply lookup_lt_Some). by injection Hj as <-.
      - rewrite list_lookup_insert_ne in Hj by done. by rewrite (Ha j k). }
    lia.
  Qed.
  Lemma alone_goto c c' i x : a_hs c' = <[i := AHandle x []]> (a_hs c) -> alone i c -> alone i c'.
  Proof.
    intros E Ha j k Hne Hj. rewrite E, list_lookup_insert_ne in Hj by done. by eapply Ha.
  Qed.

  (** The last count is given up. *)
  Lemma PA_end c c' i x x' :
    PA c -> a_hs c !! i = Some (AHandle x []) -> owns_x x = true -> locks x = false -> a_strong c = 1 ->
    ending x' = true -> stage x' = Alive -> (x' = XMTake -> 1 <= happened is_weak_made c) ->
    c' = goto i x' (set_strong 0 c) -> PB c'.
  Proof.
    intros (Hd&Hf&Hs&Hp&Hl&HK&Hw&Hz&Hlone&Hinc&E1&E2&E3&E4) Hi Ho Hlk H1 He Hst HV ->.
    assert (HW : owners (a_hs c) = 1 /\ happened is_leak c = 0).
    { pose proof (owner_pos c i _ Hi) as O. rewrite own_goto, Ho in O. lia. }
    destruct HW as [HW HL]. destruct (alone_one c i _ Hl Hi) as [Ha _]; [rewrite own_goto, Ho; lia|done|].
    pose proof (alone_sum lk c i _ eq_refl Ha Hi) as HK0. unfold lk at 2 in HK0. simpl in HK0.
    rewrite Hlk in HK0. rewrite HK0 in Hw. simpl in Hw.
    exists i, x'. simpl. hap. rewrite Hst.
    split; [apply list_lookup_insert; by eapply lookup_lt_Some|]. split; [done|].
    split; [eapply alone_goto; [|exact Ha]; done|].
    split; [done|]. split; [done|]. split; [done|]. split; [done|]. split; [done|].
    split; [by intros [->| ->]|]. split; [|done].
    intros [->|[->| ->]]; [by apply HV|done|done].
  Qed.

  Lemma excl_PA c i x flag c' :
    PA c -> a_hs c !! i = Some (AHandle x []) -> step_excl i x flag c = Some c' -> asize c + 4 <= usize_max ->
    (PA c' \/ PB c') /\ happened is_bad c' = happened is_bad c /\
    happened is_overflow c' = happened is_overflow c /\ asize c' <= asize c + 1.
  Proof.
    intros HPA Hi Hst Hsz. pose proof HPA as (Hd&Hf&Hs&Hp&Hl&HK&Hw&Hz&Hlone&Hinc&E1&E2&E3&E4).
    pose proof (Forall_lookup_1 _ _ _ _ Hl Hi) as [He _]. simpl in He.
    assert (Hox : owns_x x = true) by (by destruct x).
    assert (Hown : own (AHandle x []) = 1) by (by rewrite own_goto, Hox).
    assert (Hm : mem_ok c = true) by (unfold mem_ok; by rewrite Hf).
    assert (Hv : val_ok c = true) by (unfold val_ok; by rewrite Hf, Hd).
    assert (HV : V c <= asize c) by (unfold asize; lia).
    assert (HW : owners (a_hs c) + L c <= asize c) by (unfold asize; lia).
    pose proof (owner_pos c i _ Hi) as Op. rewrite Hown in Op.
    assert (Hset : forall x', sumN own (<[i := AHandle x' []]> (a_hs c)) + 1 =
      owners (a_hs c) + one (owns_x x')).
    { intros x'. pose proof (sumN_insert own _ _ _ (AHandle x' []) Hi) as S.
      rewrite Hown, own_goto in S. unfold owners. lia. }
    assert (HLk : lk (AHandle x []) <= sumN lk (a_hs c)) by (by eapply sumN_lookup).
    rewrite lk_goto in HLk. assert (Hum : usize_max <> 0) by done.
    Ltac fin c i x Hset x' := split; [|split; [by hap|split; [by hap|]]];
      [left; eapply (PA_upd c _ i (AHandle x [])); try done; simpl; hap; rewrite ?own_goto, ?lk_goto; simpl in *;
       first [done|lia|repeat match goal with |- context [if ?b then _ else _] => destruct b eqn:? end; done || lia]
      |specialize (Hset x'); unfold asize; hap; simpl in *; unfold owners in *; try lia].
    pose proof (Hlone i _ Hi) as Hlo.
    pose proof (Hinc _ _ Hi) as Hiv. simpl in Hiv.
    assert (HK1 : a_strong c = 1 -> sumN lk (a_hs c) = one (locks x)).
    { intros E. destruct (alone_one c i _ Hl Hi) as [Ha _]; [lia|lia|]. by rewrite (alone_sum lk c i _ eq_refl Ha Hi). }
    assert (Hw' : sumN lk (a_hs c) = 0 /\ a_weak c = V c \/ sumN lk (a_hs c) = 1 /\ a_weak c = usize_max).
    { destruct (N.eqb_spec (sumN lk (a_hs c)) 0); [by left|right; split; [lia|done]]. }
    destruct x; simpl in Hst; try discriminate; unfold checked in Hst; rewrite ?Hm, ?Hv in Hst; injection Hst as <-.
    - (* XDrop *)
      assert (Hsub : wsub (a_strong c) 1 = a_strong c - 1).
      { unfold wsub. rewrite <- (N.mod_small (a_strong c - 1) (2 ^ 64)) by (change (2 ^ 64) with (usize_max + 1); lia).
        replace (a_strong c + 2 ^ 64 - 1) with (a_strong c - 1 + 1 * 2 ^ 64) by lia.
        rewrite N.mod_add by lia. reflexivity. }
      rewrite Hsub. destruct (N.eqb_spec (a_strong c) 1) as [E|E].
      + split; [right; rewrite E; by eapply (PA_end c _ i XDrop XDestroy)|]. split; [done|]. split; [done|].
        specialize (Hset XDestroy). unfold asize. hap. unfold owners in *. simpl in Hset. lia.
      + fin c i XDrop Hset XGone.
    - (* XCas *)
      destruct (N.eqb_spec (a_strong c) 1) as [E|E].
      + split; [right; by eapply (PA_end c _ i XCas XTake)|]. split; [done|]. split; [done|].
        specialize (Hset XTake). unfold asize. hap. unfold owners in *. simpl in Hset. lia.
      + fin c i XCas Hset XHeld.
    - (* XLock *)
      destruct (N.eqb_spec (a_weak c) 0) as [E|E].
      + fin c i XLock Hset XLoadS.
      + fin c i XLock Hset XHeld.
    - (* XLoadS *) fin c i XLoadS Hset (XUnlock (a_strong c =? 1)).
    - (* XUnlock *) destruct unique.
      + fin c i (XUnlock true) Hset XMut.
      + fin c i (XUnlock false) Hset XHeld.
    - (* XM0 *) fin c i XM0 Hset (XM1 (a_strong c)).
    - (* XM1 *) destruct (strong =? 1) eqn:Es; [destruct (a_weak c =? 0) eqn:E|].
      + fin c i (XM1 strong) Hset XMut.
      + fin c i (XM1 strong) Hset (XMInc (a_weak c)).
      + fin c i (XM1 strong) Hset XMClone.
    - (* XMInc *)
      simpl in Hlo, Hiv.
      assert (E0 : (v =? usize_max) = false) by lia. rewrite E0, andb_false_r.
      assert (Hadd : wadd v 1 = v + 1).
      { unfold wadd. apply N.mod_small. change (2 ^ 64) with (usize_max + 1). lia. }
      rewrite Hadd.
      destruct (negb flag && (a_weak c =? v)) eqn:E.
      + fin c i (XMInc v) Hset XMZero.
      + fin c i (XMInc v) Hset (XMInc (a_weak c)).
    - (* XMZero *)
      destruct (negb flag && (a_strong c =? 1)) eqn:E.
      + split; [right; eapply (PA_end c _ i XMZero XMTake); try done; simpl in Hiv; lia|]. split; [done|]. split; [done|].
        specialize (Hset XMTake). unfold asize. hap. unfold owners in *. simpl in Hset. lia.
      + fin c i XMZero Hset XMClone.
    - (* XMClone *) destruct flag.
      + fin c i XMClone Hset XHeld.
      + fin c i XMClone Hset XMNewC.
    - (* XMNewC *) destruct flag.
      + fin c i XMNewC Hset XHeld.
      + fin c i XMNewC Hset XDrop.
  Qed.

  (** *** After the last count was given up *)
  Lemma gone_no_step l c c' i :
    astep l c = Some c' -> (forall j h, j <> i -> a_hs c !! j = Some h -> h = gone) ->
    (forall h, a_hs c !! i = Some h -> h_sh h = [] /\ h_ex h <> XHeld /\ h_ex h <> XMut) ->
    (exists x flag, l = LEx i flag /\ a_hs c !! i = Some (AHandle x []) /\ step_excl i x flag c = Some c') \/
    c' = say AWeakDrop c.
  Proof.
    intros Hst Ha Hi. destruct l as [j c0|j c0|j k flag|j flag|j y|j|]; simpl in Hst.
    7: { right. destruct (_ <? _); by simplify_eq. }
    all: left; destruct (a_hs c !! j) as [[x sh]|] eqn:Hj; [|done].
    all: destruct (decide (j = i)) as [->|Hne];
      [destruct (Hi _ Hj) as (Hsh&Hx1&Hx2); simpl in *; subst sh|pose proof (Ha _ _ Hne Hj) as [= -> ->]].
    all: try done.
    - by destruct x.
    - by destruct x.
    - by exists x, flag.
    - by destruct x.
    - by destruct x.
  Qed.

  Lemma PB_step l c c' :
    PB c -> astep l c = Some c' -> happened is_lost c' = 0 ->
    (PB c' \/ PC c') /\ happened is_bad c' = happened is_bad c /\
    happened is_overflow c' = happened is_overflow c /\ asize c' <= asize c + 1.
  Proof.
    intros (i&x&Hi&He&Ha&HL&Hs&Hw&Hf&Hd&HV0&HV1&E1&E2&E3&E4) Hst Hlost.
    destruct (gone_no_step _ _ _ i Hst Ha) as [(x0&flag&->&Hi'&Hx)| ->].
    { intros h Hh. rewrite Hi in Hh. injection Hh as <-. simpl. by destruct x. }
    2: { split; [left|split; [by hap|split; [by hap|unfold asize; hap]]].
      exists i, x. simpl. hap. by repeat (split; [done|]). }
    rewrite Hi in Hi'. injection Hi' as <-.
    assert (Hm : mem_ok c = true) by (unfold mem_ok; by rewrite Hf).
    assert (HW : owners (a_hs c) = 0).
    { unfold owners. rewrite (alone_sum own c i _ eq_refl Ha Hi), own_goto. by destruct x. }
    assert (Hset : forall x', sumN own (<[i := AHandle x' []]> (a_hs c)) = one (owns_x x')).
    { intros x'. pose proof (sumN_insert own _ _ _ (AHandle x' []) Hi) as S.
      rewrite !own_goto in S. unfold owners in HW. destruct x; simpl in *; done || lia. }
    assert (Hlt : (i < length (a_hs c))%nat) by (by eapply lookup_lt_Some).
    assert (Hgone : Forall (fun h => h = gone) (<[i := gone]> (a_hs c))).
    { apply Forall_lookup. intros j k Hj. destruct (decide (j = i)) as [->|Hne].
      - rewrite list_lookup_insert in Hj by done. by injection Hj as <-.
      - rewrite list_lookup_insert_ne in Hj by done. by eapply Ha. }
    Ltac siz0 Hset HW := unfold asize; hap; rewrite HW; unfold owners; simpl; rewrite ?Hset; simpl; lia.
    Ltac toB Hset HW Hlt Ha i x' := split; [left|split; [by hap|split; [by hap|siz0 Hset HW]]];
      exists i, x'; simpl; hap; split; [by apply list_lookup_insert|]; split; [done|];
      split; [eapply alone_goto; [|exact Ha]; done|];
      repeat (split; [first [done|lia|intros [->| ->]; lia|by intros [?|?]|by intros [?|[?|?]]
        |match goal with H : _ -> 1 <= happened is_weak_made _ |- _ => intros _; apply H; tauto end]|]); first [done|lia].
    Ltac cfin HV0 HV1 := intros; repeat match goal with H : a_freed _ = _ |- _ => rewrite H in * end; first [done | lia | congruence | apply HV0; by (left + right)
      | left; apply HV1; tauto].
    Ltac toC Hset HW Hgone HV0 HV1 := split; [right|split; [by hap|split; [by hap|siz0 Hset HW]]];
      split; [exact Hgone|]; simpl; hap;
      repeat (split; [cfin HV0 HV1|]); cfin HV0 HV1.
    destruct x; simpl in Hx; try done; unfold checked, val_ok in Hx; simpl in Hd; rewrite ?Hm, ?Hf, ?Hd in Hx;
      simpl in Hx; injection Hx as <-; simpl in *.
    - destruct flag.
      + toC Hset HW Hgone HV0 HV1.
      + toB Hset HW Hlt Ha i XLoadW.
    - destruct (N.eqb_spec (a_weak c) 0) as [E|E].
      + toB Hset HW Hlt Ha i XFree.
      + toC Hset HW Hgone HV0 HV1.
    - toC Hset HW Hgone HV0 HV1.
    - toB Hset HW Hlt Ha i XULoadW.
    - destruct (N.eqb_spec (a_weak c) 0) as [E|E].
      + toB Hset HW Hlt Ha i XUFree.
      + toC Hset HW Hgone HV0 HV1.
    - toC Hset HW Hgone HV0 HV1.
    - toB Hset HW Hlt Ha i XMNew.
    - destruct flag.
      + exfalso. revert Hlost. hap.
      + toB Hset HW Hlt Ha i XDropMoved.
    - rewrite Hs. simpl. toC Hset HW Hgone HV0 HV1.
  Qed.

  Lemma PC_step l c c' : PC c -> astep l c = Some c' ->
    PC c' /\ happened is_bad c' = happened is_bad c /\
    happened is_overflow c' = happened is_overflow c /\ asize c' <= asize c + 1.
  Proof.
    intros HC Hst. pose proof HC as [Hg HC']. unfold all_gone in Hg. rewrite Forall_lookup in Hg.
    destruct (gone_no_step _ _ _ 0%nat Hst) as [(x&flag&_&Hi&Hx)| ->].
    - intros j h _ Hj. by apply (Hg j).
    - intros h Hh. by rewrite (Hg _ _ Hh).
    - apply Hg in Hi. injection Hi as ->. done.
    - split; [|split; [by hap|split; [by hap|unfold asize; hap]]]. unfold PC. simpl. hap. by destruct HC.
  Qed.

  (** *** All steps *)
  Lemma PA_step l c c' :
    PA c -> astep l c = Some c' -> asize c + 4 <= usize_max ->
    (PA c' \/ PB c') /\ happened is_bad c' = happened is_bad c /\
    happened is_overflow c' = happened is_overflow c /\ asize c' <= asize c + 1.
  Proof.
    intros HPA Hst Hsz. pose proof HPA as (Hd&Hf&Hs&Hp&Hl&HK&Hw&Hz&Hlone&Hinc&E1&E2&E3&E4).
    assert (Hm : mem_ok c = true) by (unfold mem_ok; by rewrite Hf).
    assert (Hv : val_ok c = true) by (unfold val_ok; by rewrite Hf, Hd).
    assert (Hset : forall i h h', a_hs c !! i = Some h -> sumN own (<[i := h']> (a_hs c)) + own h = owners (a_hs c) + own h').
    { intros i h h' Hi. by apply sumN_insert. }
    destruct l as [i c0|i c0|i k flag|i flag|i y|i|]; simpl in Hst.
    7: { destruct (_ <? _); simplify_eq. split; [left|split; [by hap|split; [by hap|unfold asize; hap]]].
      unfold PA. simpl. hap. repeat (split; [done|]). done. }
    all: destruct (a_hs c !! i) as [h|] eqn:Hi; try done.
    - destruct h as [x sh]. destruct x; try done. injection Hst as <-.
      assert (Eo : own (AHandle XHeld (sh ++ [begin_shared c0])) = own (AHandle XHeld sh)).
      { unfold own. simpl. rewrite cnt_app. destruct c0; simpl; lia. }
      split; [left|split; [done|split; [done|]]].
      + eapply (PA_upd c _ i (AHandle XHeld sh)); try done; simpl; hap; rewrite ?Eo; try done; try lia.
        * unfold own. simpl. lia.
        * split; [done|by intros ?].
      + specialize (Hset _ _ (AHandle XHeld (sh ++ [begin_shared c0])) Hi). unfold asize. hap.
        unfold owners in *. lia.
    - destruct h as [x sh]. destruct x, sh; try done. injection Hst as <-.
      specialize (Hset _ _ (AHandle (begin_excl c0) []) Hi). rewrite !own_goto in Hset.
      assert (Hl' : live_ok (AHandle (begin_excl c0) [])) by (by destruct c0).
      split; [left|split; [destruct c0; by hap|split; [destruct c0; by hap|]]].
      + destruct c0; simpl in *; eapply (PA_upd c _ i held); try done; simpl; hap; rewrite ?own_goto; simpl; rewrite ?N.add_0_r; done || lia.
      + unfold asize. destruct c0; hap; unfold owners in *; simpl in *; lia.
    - destruct (h_sh h !! k) as [s|] eqn:Hk; [|done]. injection Hst as <-.
      destruct (shared_PA c i h k s flag HPA Hi Hk Hsz) as (?&?). tauto.
    - destruct h as [x sh]. pose proof (Forall_lookup_1 _ _ _ _ Hl Hi) as [_ Hh]. simpl in Hst.
      assert (sh = []) as ->. { apply Hh. simpl. by destruct x. }
      by eapply excl_PA.
    - destruct h as [x sh]. destruct x, sh; try done. unfold checked in Hst. rewrite Hv in Hst. injection Hst as <-.
      specialize (Hset _ _ held Hi). rewrite !own_goto in Hset.
      split; [left|split; [done|split; [done|]]].
      + eapply (PA_upd c _ i (AHandle XMut [])); try done; simpl; hap; rewrite ?own_goto; simpl; rewrite ?N.add_0_r; done || lia.
      + unfold asize. hap. unfold owners in *. simpl in *. lia.
    - destruct h as [x sh]. destruct x; try done. unfold checked in Hst. rewrite Hm in Hst. injection Hst as <-.
      split; [left|split; [by hap|split; [by hap|unfold asize; hap]]].
      unfold PA. simpl. hap. repeat (split; [done|]). done.
  Qed.

  Lemma AInv_step l c c' :
    AInv c -> astep l c = Some c' -> asize c + 4 <= usize_max -> happened is_lost c' = 0 ->
    AInv c' /\ asize c' <= asize c + 1.
  Proof.
    intros (Hb&Ho&H) Hst Hsz Hlost. unfold AInv. destruct H as [HA|[HB|HC]].
    - destruct (PA_step _ _ _ HA Hst Hsz) as (H&->&->&?). tauto.
    - destruct (PB_step _ _ _ HB Hst Hlost) as (H&->&->&?). tauto.
    - destruct (PC_step _ _ _ HC Hst) as (H&->&->&?). tauto.
  Qed.

  (** The log only grows. *)
  Lemma astep_log l c c' : astep l c = Some c' -> exists k, a_log c' = a_log c ++ k.
  Proof.
    assert (H0 : forall b c c', (exists k, a_log c' = a_log c ++ k) -> exists k, a_log (checked b c c') = a_log c ++ k).
    { intros b d d' Hd. destruct b; [done|]. by exists [ABad]. }
    assert (Hid : forall k : list (aevent_ T), exists k', k = k ++ k') by (intros k; exists []; by rewrite app_nil_r).
    destruct l as [i c0|i c0|i k flag|i flag|i y|i|]; simpl.
    7: { destruct (_ <? _); intros; simplify_eq. simpl. by eauto. }
    all: destruct (a_hs c !! i) as [h|]; try done.
    - destruct h as [[] sh]; try done. intros [= <-]. apply Hid.
    - destruct h as [[] []]; try done. intros [= <-]. destruct c0; simpl; by eauto.
    - destruct (h_sh h !! k) as [s|]; [|done]. intros [= <-]. destruct s; simpl; try apply H0.
      all: repeat case_match; simpl; by eauto.
    - destruct (h_ex h); simpl; intros [= <-]; try apply H0; repeat case_match; simpl; rewrite <- ?app_assoc; by eauto.
    - destruct h as [[] []]; try done. intros [= <-]. apply H0. simpl. by eauto.
    - destruct h as [[] sh]; try done. intros [= <-]. apply H0. simpl. rewrite <- app_assoc. by eauto.
  Qed.
  Lemma astep_mono f l c c' : astep l c = Some c' -> happened f c <= happened f c'.
  Proof. intros H. destruct (astep_log _ _ _ H) as [k E]. unfold happened. rewrite E, cnt_app. lia. Qed.
  Lemma arun_log ls c c' : arun ls c = Some c' -> exists k, a_log c' = a_log c ++ k.
  Proof.
    revert c. induction ls as [|l ls IH]; simpl; intros c H.
    - injection H as <-. exists []. by rewrite app_nil_r.
    - destruct (astep l c) as [c1|] eqn:E; [|done]. destruct (IH _ H) as [k Hk].
      destruct (astep_log _ _ _ E) as [k1 Hk1]. exists (k1 ++ k). by rewrite app_assoc, <- Hk1.
  Qed.
  Lemma arun_mono f ls c c' : arun ls c = Some c' -> happened f c <= happened f c'.
  Proof. intros H. destruct (arun_log _ _ _ H) as [k E]. unfold happened. rewrite E, cnt_app. lia. Qed.

  Lemma arun_app ls1 ls2 c c' :
    arun (ls1 ++ ls2) c = Some c' <-> exists c1, arun ls1 c = Some c1 /\ arun ls2 c1 = Some c'.
  Proof.
    revert c. induction ls1 as [|l ls1 IH]; simpl; intros c.
    - split; [intros H; by exists c|by intros (?&[= <-]&?)].
    - destruct (astep l c); [apply IH|]. split; [done|by intros (?&?&?)].
  Qed.

  Lemma AInv_run ls c c' :
    AInv c -> arun ls c = Some c' -> asize c + llen ls + 4 <= usize_max -> happened is_lost c' = 0 ->
    AInv c' /\ asize c' <= asize c + llen ls.
  Proof.
    revert c. induction ls as [|l ls IH]; simpl; intros c HI H Hsz Hlost.
    - injection H as <-. split; [done|lia].
    - destruct (astep l c) as [c1|] eqn:E; [|done].
      destruct (AInv_step _ _ _ HI E) as [HI1 Hs1]; [lia| |].
      { pose proof (arun_mono is_lost _ _ _ H). lia. }
      destruct (IH c1 HI1 H) as [? ?]; [lia|done|]. split; [done|lia].
  Qed.

  Lemma AInv_init (v : T) : AInv (arc_init v).
  Proof.
    split; [done|]. split; [done|]. left. unfold PA. simpl.
    do 4 (split; [done || lia|]).
    split; [apply Forall_singleton; split; [done|by intros ?]|]. do 4 (split; [done || lia|]).
    split; [|done]. intros [|i] h Hi; [by injection Hi as <-|done].
  Qed.

  Lemma reached_inv (v : T) ls c : arc_reached v ls c -> happened is_lost c = 0 -> AInv c /\ asize c <= llen ls + 1.
  Proof.
    intros [Hl Hr] Hlost. destruct (AInv_run ls _ c (AInv_init v) Hr) as [? ?]; [|done|].
    - change (asize (arc_init v)) with 1. lia.
    - change (asize (arc_init v)) with 1 in *. split; [done|lia].
  Qed.
End arc_inv.
#[global] Hint Rewrite @hap_say @hap_strong @hap_weak @hap_val @hap_data @hap_freed @hap_hs @hap_h
  @hap_goto @hap_sgoto @hap_send : hap.
