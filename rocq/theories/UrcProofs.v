(** Invariant of the [Urc] transition system, as long as the counter of strong fences was not set to zero. *)
From Verif Require Export SpecUrc.
From Coq Require Import ZifyBool ZifyNat ZifyN.

Section urc_inv.
  Context {PR : Profile} {T : Type}.
  Notation conf := (uconf T).
  Implicit Types (c : conf) (h : uhandle) (f : nat) (p : upc) (x : fence).
  Notation one b := (if b : bool then 1 else 0).

  (** Counted by the fence as strong, as weak. *)
  Definition sc p : bool :=
    match p with
    | UHeld | UMut | UForgot | UFence | UDrop | UCas | ULock | ULoadS | UStore0 | UM0 | UM1 | UMClone | UMNewC
    | UEnvAdd | UEnvAlloc => true
    | _ => false
    end.
  Definition wc p : bool :=
    match p with WHeld | WForgot | WDrop | WSub | WLoadS | WLeaked => true | _ => false end.
  (** Counted by the master although there is no fence for it. *)
  Definition pend p : bool := match p with UDSub | UEnvAlloc => true | _ => false end.
  Definition dead p : bool := match p with WSub | WLoadS | WLeaked => true | _ => false end.
  Definition sole_in p : bool := match p with UMut | UFence => true | _ => false end.
  Definition sole_sf p : bool := match p with UMut | UStore0 => true | _ => false end.
  (** Steps that come after the counter was set to zero. *)
  Definition zpath p : bool :=
    match p with
    | UTake | UULoadW | UUFree | UMLoad | UMInc _ | UMWeak | UMTake | UMStore | UMNew => true
    | _ => false
    end.
  Definition open x : bool := negb (f_freed x).
  Definition A c : N := happened is_env_fail c + happened is_fence_dropped c.

  Definition fence_ok c f x : Prop :=
    if f_freed x then count f sc c = 0 /\ count f wc c = 0 /\ happened (is_ff f) c = 1
    else f_strong x = count f sc c /\ f_weak x = count f wc c /\ happened (is_ff f) c = 0 /\
         1 <= f_strong x + f_weak x.

  Record UInv (n : N) c : Prop := {
    i_data : u_data c = UAlive;
    i_mf : u_mfreed c = false;
    i_bad : happened is_bad c = 0;
    i_f : forall f x, u_fences c !! f = Some x -> fence_ok c f x;
    i_new : forall f, (length (u_fences c) <= f)%nat -> happened (is_ff f) c = 0;
    i_h : forall i h, u_hs c !! i = Some h -> (u_fence h < length (u_fences c))%nat /\ zpath (u_pc h) = false;
    i_sf : u_sf c = cnt open (u_fences c) + cnt (fun h => pend (u_pc h)) (u_hs c) + A c;
    i_busy : forall f, count f busy c <= 1;
    i_in : forall i h, u_hs c !! i = Some h -> sole_in (u_pc h) = true ->
             count (u_fence h) sc c = 1 /\ count (u_fence h) wc c = 0;
    i_sole : forall i h, u_hs c !! i = Some h -> sole_sf (u_pc h) = true -> u_sf c = 1;
    i_dead : forall i h, u_hs c !! i = Some h -> dead (u_pc h) = true -> count (u_fence h) sc c = 0;
    i_len : llen (u_hs c) <= n;
    i_max : u_sf c <= n
  }.

  (** *** Counting *)
  Lemma idle_count f c : idle f c = true <-> count f busy c = 0.
  Proof.
    unfold idle, count. induction (u_hs c) as [|h hs IH]; simpl; [done|].
    unfold onf at 1. destruct ((u_fence h =? f)%nat && busy (u_pc h)); simpl.
    - split; [done|lia].
    - rewrite IH. lia.
  Qed.
  Lemma onf_self f q p : onf f q (UH f p) = q p.
  Proof. unfold onf. simpl. by rewrite Nat.eqb_refl. Qed.
  Lemma onf_other f g q p : f <> g -> onf f q (UH g p) = false.
  Proof. intros H. unfold onf. simpl. apply Nat.eqb_neq in H. rewrite Nat.eqb_sym, H. done. Qed.
  Lemma count_in f q c i h : u_hs c !! i = Some h -> u_fence h = f -> q (u_pc h) = true -> 1 <= count f q c.
  Proof.
    intros Hi <- Hq. eapply cnt_lookup; [exact Hi|]. unfold onf. by rewrite Nat.eqb_refl, Hq.
  Qed.
  Lemma count_two f q c i j h h' : i <> j -> u_hs c !! i = Some h -> u_hs c !! j = Some h' ->
    u_fence h = f -> u_fence h' = f -> q (u_pc h) = true -> q (u_pc h') = true -> 2 <= count f q c.
  Proof.
    intros Hne Hi Hj <- E Hq Hq'. eapply cnt_two; [exact Hne|exact Hi|exact Hj| |];
      unfold onf; rewrite ?Nat.eqb_refl, ?E, ?Nat.eqb_refl, ?Hq, ?Hq'; done.
  Qed.
  Lemma hap_say (q : uevent T -> bool) e c : happened q (say e c) = happened q c + one (q e).
  Proof. unfold happened. simpl. apply cnt_snoc. Qed.
  Lemma hap_log (q : uevent T -> bool) c c' : u_log c' = u_log c -> happened q c' = happened q c.
  Proof. unfold happened. by intros ->. Qed.

  (** A counted handle's fence is there. *)
  Lemma counted_open n c i h :
    UInv n c -> u_hs c !! i = Some h -> sc (u_pc h) || wc (u_pc h) = true ->
    exists x, u_fences c !! u_fence h = Some x /\ f_freed x = false.
  Proof.
    intros HI Hi Hq. destruct (i_h _ _ HI _ _ Hi) as [Hl _].
    destruct (lookup_lt_is_Some_2 _ _ Hl) as [x Hx]. exists x. split; [done|].
    pose proof (i_f _ _ HI _ _ Hx) as Hf. unfold fence_ok in Hf. destruct (f_freed x); [|done].
    destruct Hf as (H1&H2&_). exfalso. destruct (sc (u_pc h)) eqn:E.
    - pose proof (count_in _ sc _ _ _ Hi eq_refl E). lia.
    - pose proof (count_in _ wc _ _ _ Hi eq_refl Hq). lia.
  Qed.
  (** With one strong fence there is only one open fence and nothing pending. *)
  Lemma sole_fence n c i h j h' :
    UInv n c -> u_sf c = 1 -> u_hs c !! i = Some h -> sc (u_pc h) = true ->
    u_hs c !! j = Some h' -> sc (u_pc h') || wc (u_pc h') = true -> u_fence h' = u_fence h.
  Proof.
    intros HI Hs Hi Hq Hj Hq'. destruct (counted_open _ _ _ _ HI Hi) as (x&Hx&Fx); [by rewrite Hq|].
    destruct (counted_open _ _ _ _ HI Hj Hq') as (y&Hy&Fy).
    destruct (decide (u_fence h' = u_fence h)) as [|Hne]; [done|]. exfalso.
    assert (2 <= cnt open (u_fences c)).
    { eapply (cnt_two open); [exact Hne|exact Hy|exact Hx| |]; unfold open; by rewrite ?Fx, ?Fy. }
    pose proof (i_sf _ _ HI). lia.
  Qed.
  Lemma sole_pend n c i h j h' :
    UInv n c -> u_sf c = 1 -> u_hs c !! i = Some h -> sc (u_pc h) = true ->
    u_hs c !! j = Some h' -> pend (u_pc h') = true -> False.
  Proof.
    intros HI Hs Hi Hq Hj Hp. destruct (counted_open _ _ _ _ HI Hi) as (x&Hx&Fx); [by rewrite Hq|].
    assert (1 <= cnt open (u_fences c)).
    { eapply (cnt_lookup open); [exact Hx|]. unfold open. by rewrite Fx. }
    pose proof (cnt_lookup (fun h => pend (u_pc h)) _ _ _ Hj Hp). pose proof (i_sf _ _ HI). lia.
  Qed.

  (** A handle that acts on counters: nobody else knows of being alone. *)
  Lemma blocked n c i h j h' :
    UInv n c -> u_hs c !! i = Some h -> sc (u_pc h) || wc (u_pc h) || pend (u_pc h) = true ->
    busy (u_pc h) = true \/ idle (u_fence h) c = true -> j <> i -> u_hs c !! j = Some h' ->
    sole_sf (u_pc h') = false /\ (u_fence h' = u_fence h -> sc (u_pc h) || wc (u_pc h) = true -> sole_in (u_pc h') = false).
  Proof.
    intros HI Hi Hq Hb Hne Hj. split.
    - destruct (sole_sf (u_pc h')) eqn:E; [|done]. exfalso.
      pose proof (i_sole _ _ HI _ _ Hj E) as Hs.
      assert (Hsc : sc (u_pc h') = true) by (by destruct (u_pc h')).
      destruct (sc (u_pc h) || wc (u_pc h)) eqn:Hq2.
      + pose proof (sole_fence _ _ _ _ _ _ HI Hs Hj Hsc Hi Hq2) as Hf.
        destruct (u_pc h') eqn:Ep; try done.
        * (* UMut *) destruct (i_in _ _ HI _ _ Hj) as [H1 H2]; [by rewrite Ep|].
          destruct (sc (u_pc h)) eqn:E3.
          -- pose proof (count_two (u_fence h') sc c i j h h') as Ht. rewrite Ep in Ht.
             specialize (Ht (not_eq_sym Hne) Hi Hj Hf eq_refl E3 eq_refl). lia.
          -- pose proof (count_in (u_fence h') wc c i h Hi Hf Hq2). lia.
        * (* UStore0 *) pose proof (i_busy _ _ HI (u_fence h')) as HB.
          assert (Hb' : busy (u_pc h') = true) by (by rewrite Ep).
          destruct Hb as [Hb|Hb].
          -- pose proof (count_two (u_fence h') busy c i j h h' (not_eq_sym Hne) Hi Hj Hf eq_refl Hb Hb'). lia.
          -- apply idle_count in Hb. pose proof (count_in (u_fence h) busy c j h' Hj (eq_sym Hf) Hb'). lia.
      + simpl in Hq. by eapply (sole_pend _ _ _ _ _ _ HI Hs Hj Hsc Hi).
    - intros Hf Hq2. destruct (sole_in (u_pc h')) eqn:E; [|done]. exfalso.
      destruct (i_in _ _ HI _ _ Hj E) as [H1 H2].
      assert (Hsc : sc (u_pc h') = true) by (by destruct (u_pc h')).
      destruct (sc (u_pc h)) eqn:E3.
      + pose proof (count_two (u_fence h') sc c i j h h' (not_eq_sym Hne) Hi Hj (eq_sym Hf) eq_refl E3 Hsc). lia.
      + pose proof (count_in (u_fence h') wc c i h Hi (eq_sym Hf) Hq2). lia.
  Qed.

  (** Changing handle [i]. *)
  Lemma count_goto f q c c' i h p :
    u_hs c !! i = Some h -> u_hs c' = <[i := UH (u_fence h) p]> (u_hs c) ->
    count f q c' + one ((u_fence h =? f)%nat && q (u_pc h)) = count f q c + one ((u_fence h =? f)%nat && q p).
  Proof. intros Hi Hhs. unfold count. rewrite Hhs. by apply (cnt_insert (onf f q)). Qed.
  Lemma count_goto_same f q c c' i h p :
    u_hs c !! i = Some h -> u_hs c' = <[i := UH (u_fence h) p]> (u_hs c) -> q p = q (u_pc h) ->
    count f q c' = count f q c.
  Proof. intros Hi Hhs Hq. pose proof (count_goto f q c c' i h p Hi Hhs) as H. rewrite Hq in H. lia. Qed.

  (** The invariant under a step of handle [i] which may change its own fence. *)
  Lemma inv_step n n' c c' i h p :
    UInv n c -> u_hs c !! i = Some h -> u_hs c' = <[i := UH (u_fence h) p]> (u_hs c) ->
    zpath p = false -> u_data c' = UAlive -> u_mfreed c' = false -> happened is_bad c' = 0 ->
    length (u_fences c') = length (u_fences c) ->
    (forall f, f <> u_fence h -> u_fences c' !! f = u_fences c !! f) ->
    (forall f, f <> u_fence h -> happened (is_ff f) c' = happened (is_ff f) c) ->
    (forall x', u_fences c' !! u_fence h = Some x' -> fence_ok c' (u_fence h) x') ->
    u_sf c' = cnt open (u_fences c') + cnt (fun h => pend (u_pc h)) (u_hs c') + A c' ->
    (busy p = true -> busy (u_pc h) = true \/ idle (u_fence h) c = true) ->
    (sole_in p = true -> count (u_fence h) sc c' = 1 /\ count (u_fence h) wc c' = 0) ->
    (sole_sf p = true -> u_sf c' = 1) ->
    (dead p = true -> count (u_fence h) sc c' = 0) ->
    (sc p = true -> sc (u_pc h) = true) -> (wc p = true -> wc (u_pc h) = true) ->
    (u_sf c' <> u_sf c \/ sc p <> sc (u_pc h) \/ wc p <> wc (u_pc h) ->
       sc (u_pc h) || wc (u_pc h) || pend (u_pc h) = true /\ (busy (u_pc h) = true \/ idle (u_fence h) c = true)) ->
    u_sf c' <= n' -> n <= n' ->
    UInv n' c'.
  Proof.
    intros HI Hi Hhs Hz Hd Hm Hbad Hlen Hf Hff Hfi Hsf Hb Hin Hsole Hdead Hsc Hwc Hact Hmax Hn.
    assert (Hlt : (i < length (u_hs c))%nat) by (by eapply lookup_lt_Some).
    assert (Hlook : forall j h', u_hs c' !! j = Some h' ->
              (j = i /\ h' = UH (u_fence h) p) \/ (j <> i /\ u_hs c !! j = Some h')).
    { intros j h' Hj. rewrite Hhs in Hj. destruct (decide (j = i)) as [->|Hne].
      - rewrite list_lookup_insert in Hj by done. injection Hj as <-. by left.
      - rewrite list_lookup_insert_ne in Hj by done. by right. }
    assert (Hcnt : forall f q, f <> u_fence h -> count f q c' = count f q c).
    { intros f q Hne. pose proof (count_goto f q c c' i h p Hi Hhs) as H.
      apply not_eq_sym, Nat.eqb_neq in Hne. rewrite Hne in H. simpl in H. clear -H. lia. }
    assert (Hblk : forall j h', j <> i -> u_hs c !! j = Some h' ->
              (sole_sf (u_pc h') = true -> u_sf c' = u_sf c) /\
              (sole_in (u_pc h') = true -> u_fence h' = u_fence h -> sc p = sc (u_pc h) /\ wc p = wc (u_pc h))).
    { intros j h' Hne Hj. split.
      - intros E. destruct (decide (u_sf c' = u_sf c)) as [|Hd']; [done|]. exfalso.
        destruct Hact as [H1 H2]; [by left|].
        destruct (blocked _ _ _ _ _ _ HI Hi H1 H2 Hne Hj) as [E' _]. congruence.
      - intros E Hfe. destruct (decide (sc p = sc (u_pc h) /\ wc p = wc (u_pc h))) as [|Hd']; [done|]. exfalso.
        assert (Hch : sc p <> sc (u_pc h) \/ wc p <> wc (u_pc h)).
        { destruct (decide (sc p = sc (u_pc h))) as [E1|E1]; [|by left]. right. intros E2. by apply Hd'. }
        destruct Hact as [H1 H2]; [by right|].
        destruct (blocked _ _ _ _ _ _ HI Hi H1 H2 Hne Hj) as [_ E'].
        destruct (sc (u_pc h) || wc (u_pc h)) eqn:Ec; [rewrite E' in E by done; done|].
        apply orb_false_iff in Ec. destruct Ec as [Ec1 Ec2]. rewrite Ec1, Ec2 in *.
        destruct Hch as [Hch|Hch]; [destruct (sc p)|destruct (wc p)]; try done;
          [by specialize (Hsc eq_refl)|by specialize (Hwc eq_refl)]. }
    constructor; try done.
    - intros f x' Hx'. destruct (decide (f = u_fence h)) as [->|Hne]; [by apply Hfi|].
      rewrite (Hf _ Hne) in Hx'. pose proof (i_f _ _ HI _ _ Hx') as Hok. unfold fence_ok in *.
      by rewrite !(Hcnt _ _ Hne), (Hff _ Hne).
    - intros f Hge. rewrite Hlen in Hge. destruct (i_h _ _ HI _ _ Hi) as [Hl _].
      rewrite Hff by (clear -Hge Hl; lia). by apply (i_new _ _ HI).
    - intros j h' Hj. rewrite Hlen. destruct (Hlook _ _ Hj) as [[-> ->]|[Hne Hj']]; [|by apply (i_h _ _ HI _ _ Hj')].
      simpl. split; [by apply (i_h _ _ HI _ _ Hi)|done].
    - intros f. destruct (decide (f = u_fence h)) as [->|Hne]; [|by rewrite (Hcnt _ _ Hne); apply (i_busy _ _ HI)].
      pose proof (count_goto (u_fence h) busy c c' i h p Hi Hhs) as H. rewrite Nat.eqb_refl in H. simpl in H.
      pose proof (i_busy _ _ HI (u_fence h)) as HB.
      destruct (busy p) eqn:E; [|clear -H HB; destruct (busy (u_pc h)); lia].
      destruct (Hb eq_refl) as [E'|E']; [rewrite E' in H; clear -H HB; lia|].
      apply idle_count in E'. clear -H HB E'. destruct (busy (u_pc h)); lia.
    - intros j h' Hj E. destruct (Hlook _ _ Hj) as [[-> ->]|[Hne Hj']]; [by apply Hin|].
      destruct (i_in _ _ HI _ _ Hj' E) as [H1 H2].
      destruct (decide (u_fence h' = u_fence h)) as [Hfe|Hfe]; [|by rewrite !(Hcnt _ _ Hfe)].
      destruct (proj2 (Hblk _ _ Hne Hj') E Hfe) as [E1 E2]. rewrite Hfe in *.
      by rewrite (count_goto_same _ sc c c' i h p Hi Hhs E1), (count_goto_same _ wc c c' i h p Hi Hhs E2).
    - intros j h' Hj E. destruct (Hlook _ _ Hj) as [[-> ->]|[Hne Hj']]; [by apply Hsole|].
      rewrite (proj1 (Hblk _ _ Hne Hj') E). by apply (i_sole _ _ HI _ _ Hj').
    - intros j h' Hj E. destruct (Hlook _ _ Hj) as [[-> ->]|[Hne Hj']]; [by apply Hdead|].
      pose proof (i_dead _ _ HI _ _ Hj' E) as H0.
      destruct (decide (u_fence h' = u_fence h)) as [Hfe|Hfe]; [|by rewrite !(Hcnt _ _ Hfe)].
      pose proof (count_goto (u_fence h) sc c c' i h p Hi Hhs) as H. rewrite Nat.eqb_refl in H. simpl in H.
      rewrite Hfe in *. destruct (sc p) eqn:E1; [rewrite Hsc in H by done|];
        clear -H H0; destruct (sc (u_pc h)); lia.
    - rewrite Hhs, insert_length. pose proof (i_len _ _ HI) as HL. clear -HL Hn. lia.
  Qed.

  (** A step that changes nothing that is counted. *)
  Lemma inv_neutral n n' c c' i h p :
    UInv n c -> u_hs c !! i = Some h -> u_hs c' = <[i := UH (u_fence h) p]> (u_hs c) ->
    zpath p = false -> u_data c' = u_data c -> u_mfreed c' = u_mfreed c -> u_fences c' = u_fences c -> u_sf c' = u_sf c ->
    happened is_bad c' = happened is_bad c -> (forall f, happened (is_ff f) c' = happened (is_ff f) c) ->
    happened is_env_fail c' = happened is_env_fail c -> happened is_fence_dropped c' = happened is_fence_dropped c ->
    sc p = sc (u_pc h) -> wc p = wc (u_pc h) -> pend p = pend (u_pc h) ->
    (busy p = true -> busy (u_pc h) = true \/ idle (u_fence h) c = true) ->
    (sole_in p = true -> count (u_fence h) sc c = 1 /\ count (u_fence h) wc c = 0) ->
    (sole_sf p = true -> u_sf c = 1) ->
    (dead p = true -> count (u_fence h) sc c = 0) ->
    n <= n' ->
    UInv n' c'.
  Proof.
    intros HI Hi Hhs Hz Hd Hm Hf Hsf Hbad Hff He1 He2 Hs Hw Hp Hb Hin Hso Hde Hn.
    assert (Es : forall f, count f sc c' = count f sc c) by (intros f; by eapply count_goto_same).
    assert (Ew : forall f, count f wc c' = count f wc c) by (intros f; by eapply count_goto_same).
    eapply (inv_step n n' c c' i h p HI Hi Hhs Hz).
    - rewrite Hd. apply HI.
    - rewrite Hm. apply HI.
    - rewrite Hbad. apply HI.
    - by rewrite Hf.
    - intros f _. by rewrite Hf.
    - intros f _. apply Hff.
    - intros x' Hx'. rewrite Hf in Hx'. pose proof (i_f _ _ HI _ _ Hx') as Hok. unfold fence_ok in *.
      by rewrite Es, Ew, Hff.
    - rewrite Hsf, (i_sf _ _ HI), Hf. unfold A. rewrite He1, He2, Hhs.
      pose proof (cnt_insert (fun h => pend (u_pc h)) _ _ _ (UH (u_fence h) p) Hi) as Hc. simpl in Hc.
      rewrite Hp in Hc. clear -Hc. destruct (pend (u_pc h)); lia.
    - done.
    - by rewrite Es, Ew.
    - by rewrite Hsf.
    - by rewrite Es.
    - by rewrite Hs.
    - by rewrite Hw.
    - intros [?|[?|?]]; congruence.
    - rewrite Hsf. pose proof (i_max _ _ HI) as HM. clear -HM Hn. lia.
    - done.
  Qed.

  (** A new handle for the fence of handle [i]. *)
  Lemma inv_add n n' c c' i h p :
    UInv n c -> u_hs c !! i = Some h -> u_hs c' = u_hs c ++ [UH (u_fence h) p] ->
    sc (u_pc h) = true -> idle (u_fence h) c = true -> sole_in (u_pc h) = false -> sole_sf (u_pc h) = false ->
    zpath p = false -> pend p = false -> busy p = false -> sole_in p = false -> sole_sf p = false -> dead p = false ->
    u_data c' = u_data c -> u_mfreed c' = u_mfreed c -> u_log c' = u_log c -> u_sf c' = u_sf c ->
    cnt open (u_fences c') = cnt open (u_fences c) ->
    length (u_fences c') = length (u_fences c) ->
    (forall f, f <> u_fence h -> u_fences c' !! f = u_fences c !! f) ->
    (forall x', u_fences c' !! u_fence h = Some x' -> fence_ok c' (u_fence h) x') ->
    n + 1 <= n' ->
    UInv n' c'.
  Proof.
    intros HI Hi Hhs Hsc Hidle Hni Hns Hz Hp Hb Hin Hso Hde Hd Hm Hlog Hsf Hop Hlen Hf Hfi Hn.
    assert (Hlook : forall j h', u_hs c' !! j = Some h' -> h' = UH (u_fence h) p \/ u_hs c !! j = Some h').
    { intros j h' Hj. rewrite Hhs in Hj. apply lookup_app_Some in Hj. destruct Hj as [Hj|[_ Hj]]; [by right|].
      left. apply list_lookup_singleton_Some in Hj. by destruct Hj as [_ ->]. }
    assert (Hcnt : forall f q, count f q c' = count f q c + one (onf f q (UH (u_fence h) p))).
    { intros f q. unfold count. rewrite Hhs. apply cnt_snoc. }
    assert (Hne : forall f q, f <> u_fence h -> count f q c' = count f q c).
    { intros f q Hne. rewrite Hcnt, onf_other by done. apply N.add_0_r. }
    assert (Hh : forall q, happened q c' = happened q c) by (intros q; by apply hap_log).
    assert (Hblk : forall j h', u_hs c !! j = Some h' -> sole_in (u_pc h') = true -> u_fence h' <> u_fence h).
    { intros j h' Hj E Hfe. destruct (decide (j = i)) as [->|Hji]; [congruence|].
      destruct (blocked n c i h j h' HI Hi) as [_ H]; [by rewrite Hsc|by right|done|done|].
      rewrite H in E; [done|done|by rewrite Hsc]. }
    constructor.
    - rewrite Hd. apply HI.
    - rewrite Hm. apply HI.
    - rewrite Hh. apply HI.
    - intros f x' Hx'. destruct (decide (f = u_fence h)) as [->|Hfe]; [by apply Hfi|].
      rewrite (Hf _ Hfe) in Hx'. pose proof (i_f _ _ HI _ _ Hx') as Hok. unfold fence_ok in *.
      by rewrite !(Hne _ _ Hfe), Hh.
    - intros f Hge. rewrite Hlen in Hge. rewrite Hh. by apply (i_new _ _ HI).
    - intros j h' Hj. rewrite Hlen. destruct (Hlook _ _ Hj) as [->|Hj']; [|by apply (i_h _ _ HI _ _ Hj')].
      simpl. split; [by apply (i_h _ _ HI _ _ Hi)|done].
    - rewrite Hsf, Hop, Hhs, cnt_snoc. simpl. rewrite Hp. unfold A. rewrite !Hh.
      pose proof (i_sf _ _ HI) as H. unfold A in H. clear -H. lia.
    - intros f. rewrite Hcnt. unfold onf. simpl. rewrite Hb, andb_false_r.
      pose proof (i_busy _ _ HI f) as H. clear -H. lia.
    - intros j h' Hj E. destruct (Hlook _ _ Hj) as [->|Hj']; [simpl in E; congruence|].
      rewrite !Hne by (by eapply Hblk). by apply (i_in _ _ HI _ _ Hj').
    - intros j h' Hj E. destruct (Hlook _ _ Hj) as [->|Hj']; [simpl in E; congruence|].
      rewrite Hsf. by apply (i_sole _ _ HI _ _ Hj').
    - intros j h' Hj E. destruct (Hlook _ _ Hj) as [->|Hj']; [simpl in E; congruence|].
      pose proof (i_dead _ _ HI _ _ Hj' E) as H0. rewrite Hne; [done|]. intros Hfe.
      pose proof (count_in (u_fence h') sc c i h Hi (eq_sym Hfe) Hsc) as H1. clear -H0 H1. lia.
    - rewrite Hhs, app_length. simpl. pose proof (i_len _ _ HI) as H. clear -H Hn. lia.
    - rewrite Hsf. pose proof (i_max _ _ HI) as H. clear -H Hn. lia.
  Qed.

  (** A new fence with its handle. *)
  Lemma inv_newfence n n' c c' :
    UInv n c -> u_hs c' = u_hs c ++ [UH (length (u_fences c)) UHeld] ->
    u_fences c' = u_fences c ++ [Fence 1 0 false] -> u_sf c' = u_sf c + 1 ->
    u_data c' = u_data c -> u_mfreed c' = u_mfreed c -> u_log c' = u_log c ->
    (forall j h', u_hs c !! j = Some h' -> sole_sf (u_pc h') = false) ->
    n + 1 <= n' ->
    UInv n' c'.
  Proof.
    intros HI Hhs Hf Hsf Hd Hm Hlog Hno Hn. set (F := length (u_fences c)) in *.
    assert (Hlook : forall j h', u_hs c' !! j = Some h' -> h' = UH F UHeld \/ u_hs c !! j = Some h').
    { intros j h' Hj. rewrite Hhs in Hj. apply lookup_app_Some in Hj. destruct Hj as [Hj|[_ Hj]]; [by right|].
      left. apply list_lookup_singleton_Some in Hj. by destruct Hj as [_ ->]. }
    assert (Hcnt : forall f q, count f q c' = count f q c + one (onf f q (UH F UHeld))).
    { intros f q. unfold count. rewrite Hhs. apply cnt_snoc. }
    assert (Hne : forall f q, f <> F -> count f q c' = count f q c).
    { intros f q Hne. rewrite Hcnt, onf_other by done. apply N.add_0_r. }
    assert (Hz : forall q, count F q c = 0).
    { intros q. destruct (N.eq_0_gt_0_cases (count F q c)) as [|Hpos]; [done|]. exfalso.
      destruct (cnt_pos _ _ Hpos) as (j&h'&Hj&Ho). unfold onf in Ho. apply andb_true_iff in Ho. destruct Ho as [Ho _].
      apply Nat.eqb_eq in Ho. destruct (i_h _ _ HI _ _ Hj) as [Hl _]. clear -Ho Hl. lia. }
    assert (Hh : forall q, happened q c' = happened q c) by (intros q; by apply hap_log).
    assert (HhF : forall j h', u_hs c !! j = Some h' -> u_fence h' <> F).
    { intros j h' Hj. destruct (i_h _ _ HI _ _ Hj) as [Hl _]. clear -Hl. lia. }
    constructor.
    - rewrite Hd. apply HI.
    - rewrite Hm. apply HI.
    - rewrite Hh. apply HI.
    - intros f x' Hx'. rewrite Hf in Hx'. apply lookup_app_Some in Hx'. destruct Hx' as [Hx'|[Hge Hx']].
      + assert (Hfe : f <> F) by (apply lookup_lt_Some in Hx'; clear -Hx'; lia).
        pose proof (i_f _ _ HI _ _ Hx') as Hok. unfold fence_ok in *. by rewrite !(Hne _ _ Hfe), Hh.
      + apply list_lookup_singleton_Some in Hx'. destruct Hx' as [H0 <-].
        assert (f = F) as -> by (clear -H0 Hge; lia).
        unfold fence_ok. simpl. rewrite !Hcnt, !Hz, !onf_self, Hh. simpl.
        rewrite (i_new _ _ HI) by (clear; lia). clear. lia.
    - intros f Hge. rewrite Hf, app_length in Hge. rewrite Hh. apply (i_new _ _ HI). clear -Hge. lia.
    - intros j h' Hj. rewrite Hf, app_length. destruct (Hlook _ _ Hj) as [->|Hj']; simpl.
      + split; [clear; lia|done].
      + destruct (i_h _ _ HI _ _ Hj') as [Hl Hz']. split; [clear -Hl; lia|done].
    - rewrite Hsf, Hf, Hhs, !cnt_snoc. simpl. unfold A. rewrite !Hh.
      pose proof (i_sf _ _ HI) as H. unfold A in H. clear -H. lia.
    - intros f. rewrite Hcnt. unfold onf. simpl. rewrite andb_false_r.
      pose proof (i_busy _ _ HI f) as H. clear -H. lia.
    - intros j h' Hj E. destruct (Hlook _ _ Hj) as [->|Hj']; [done|].
      rewrite !Hne by (by eapply HhF). by apply (i_in _ _ HI _ _ Hj').
    - intros j h' Hj E. destruct (Hlook _ _ Hj) as [->|Hj']; [done|]. rewrite (Hno _ _ Hj') in E. done.
    - intros j h' Hj E. destruct (Hlook _ _ Hj) as [->|Hj']; [done|].
      rewrite !Hne by (by eapply HhF). by apply (i_dead _ _ HI _ _ Hj').
    - rewrite Hhs, app_length. simpl. pose proof (i_len _ _ HI) as H. clear -H Hn. lia.
    - rewrite Hsf. pose proof (i_max _ _ HI) as H. clear -H Hn. lia.
  Qed.
End urc_inv.
