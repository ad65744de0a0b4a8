(** Invariant of the [Arc] transition system under the release/acquire rules. *)
From Verif Require Export SpecArcOrd OrdProofs ArcProofs.
From Coq Require Import ZifyBool ZifyNat ZifyN.

Section ord_inv.
  Context {PR : Profile} {T : Type}.
  Notation conf := (aconf T).
  Notation wconf := (wconf T).
  Implicit Types (c : conf) (w : wconf) (h : ahandle) (x : xpc) (tv : tview) (hv : hview).

  (** Everything there is to know. *)
  Definition top w : view :=
    View (length (w_strong w) - 1) (length (w_weak w) - 1) (set_seq 0 (length (w_trace w))).

  Lemma top_in w V e a : vle (top w) V -> w_trace w !! e = Some a -> e ∈ v_seen V.
  Proof.
    intros (_&_&Hs) He. apply Hs. simpl. apply elem_of_set_seq. apply lookup_lt_Some in He. lia.
  Qed.

  (** *** What an access does to the views *)
  Definition kind_of (a : action) : option akind :=
    match a with ANone => None | APlain k => Some k | _ => Some KAtomic end.
  Definition entry (ko : option akind) tv : list access :=
    match ko with Some k => [Access k (v_seen (t_cur tv))] | None => [] end.

  Definition grown (ko : option akind) tv w tv' w' : Prop :=
    vle (t_cur tv) (t_cur tv') /\ w_hv w' = w_hv w /\
    w_trace w' = w_trace w ++ entry ko tv /\
    (forall V, vle (top w) V -> vle (t_cur tv') V -> vle (top w') V) /\
    (ko <> None -> length (w_trace w) ∈ v_seen (t_cur tv')).

  Definition loaded (l : loc) (o : ord) (t : nat) tv w (go : conf -> option conf) tv' w' : Prop :=
    exists m c1, hist l w !! t = Some m /\ (v_pos l (t_cur tv) <= t)%nat /\
      go (set_counter l (m_val m) (w_arc w)) = Some c1 /\
      w_arc w' = set_counter l (counter l (w_arc w)) c1 /\
      w_strong w' = w_strong w /\ w_weak w' = w_weak w /\
      (acquires o = true -> vle (m_view m) (t_cur tv')).

  Definition written (l : loc) tv w tv' w' (m' : msg) : Prop :=
    hist l w' = hist l w ++ [m'] /\ m_val m' = counter l (w_arc w') /\
    (length (hist l w) <= v_pos l (t_cur tv'))%nat /\
    match l with LStrong => w_weak w' = w_weak w | LWeak => w_strong w' = w_strong w end.

  Definition updated (l : loc) (o : ord) tv w (go : conf -> option conf) tv' w' : Prop :=
    exists m m', last (hist l w) = Some m /\
      go (set_counter l (m_val m) (w_arc w)) = Some (w_arc w') /\
      counter l (w_arc w') <> m_val m /\ written l tv w tv' w' m' /\ vle (m_view m) (m_view m') /\
      (releases o = true -> vle (t_cur tv') (m_view m')) /\
      (acquires o = true -> vle (m_view m) (t_cur tv')) /\ vle (m_view m) (t_read tv').

  Definition performed (a : action) (t : nat) tv w (go : conf -> option conf) tv' w' : Prop :=
    match a with
    | ANone | APlain _ => go (w_arc w) = Some (w_arc w') /\ w_strong w' = w_strong w /\ w_weak w' = w_weak w
    | ALoad l o => loaded l o t tv w go tv' w'
    | ARmw l o f =>
        (loaded l f t tv w go tv' w' /\
         exists m c1, hist l w !! t = Some m /\ go (set_counter l (m_val m) (w_arc w)) = Some c1 /\ counter l c1 = m_val m) \/
        updated l o tv w go tv' w'
    | AStore l o => go (w_arc w) = Some (w_arc w') /\ exists m', written l tv w tv' w' m'
    end.

  Lemma top_record k tv w V c' :
    vle (top w) V -> length (w_trace w) ∈ v_seen V -> vle (top (record k tv (set_arc c' w))) V.
  Proof.
    intros (H1&H2&H3) H. unfold vle. simpl in *. split; [done|]. split; [done|].
    rewrite app_length. simpl. intros e He. apply elem_of_set_seq in He.
    destruct (decide (e = length (w_trace w))) as [->|Hne]; [done|].
    apply H3. apply elem_of_set_seq. lia.
  Qed.
  Lemma top_append l m w V :
    vle (top w) V -> (length (hist l w) <= v_pos l V)%nat -> vle (top (append l m w)) V.
  Proof.
    intros (H1&H2&H3) H. destruct l; unfold vle; simpl in *; rewrite app_length; simpl.
    - split; [lia|]. by split.
    - split; [done|]. split; [lia|done].
  Qed.

  Lemma made_le w tv : vle (t_cur tv) (t_cur (made w tv)).
  Proof. apply vjoin_l. Qed.
  Lemma made_in w tv : length (w_trace w) ∈ v_seen (t_cur (made w tv)).
  Proof. simpl. set_solver. Qed.
  Lemma got_le l o t m tv : vle (t_cur tv) (t_cur (got l o t m tv)).
  Proof.
    simpl. destruct (acquires o).
    - eapply vle_trans; [apply v_at_le|apply vjoin_l].
    - apply v_at_le.
  Qed.
  Lemma vle_in e v1 v2 : e ∈ v_seen v1 -> vle v1 v2 -> e ∈ v_seen v2.
  Proof. intros H (_&_&Hs). by apply Hs. Qed.

  Lemma perform_spec a t tv w go tv' w' :
    perform a t tv w go = Some (tv', w') ->
    grown (kind_of a) tv w tv' w' /\ performed a t tv w go tv' w'.
  Proof.
    destruct a as [|l o|l o f|l o|k]; simpl.
    - destruct (go (w_arc w)) as [c'|] eqn:Hgo; [|done]. simpl. intros [= <- <-]. split; [|by simpl].
      split; [apply vle_refl|]. split; [done|]. split; [simpl; by rewrite app_nil_r|]. by split.
    - destruct (hist l w !! t) as [m|] eqn:Hm; [|done]. simpl.
      destruct (v_pos l (t_cur tv) <=? t)%nat eqn:Hp; [|done].
      destruct (go _) as [c'|] eqn:Hgo; [|done]. simpl. intros [= <- <-]. split.
      + split; [eapply vle_trans; [apply made_le|apply (got_le l o t m)]|]. split; [done|]. split; [done|].
        split; [|intros _; eapply vle_in; [apply made_in|apply (got_le l o t m (made w tv))]].
        intros V HV HV'. apply top_record; [done|]. eapply vle_in; [|exact HV'].
        eapply vle_in; [apply made_in|apply (got_le l o t m (made w tv))].
      + exists m, c'. split; [done|]. split; [lia|]. split; [done|]. split; [done|]. split; [done|]. split; [done|].
        intros Ha. simpl. rewrite Ha. apply vjoin_r.
    - destruct (hist l w !! t) as [m|] eqn:Hm; [|done]. simpl.
      destruct (v_pos l (t_cur tv) <=? t)%nat eqn:Hp; [|done].
      destruct (go _) as [c'|] eqn:Hgo; [|done]. simpl. destruct (counter l c' =? m_val m) eqn:Hcm.
      + intros [= <- <-]. split.
        * split; [eapply vle_trans; [apply made_le|apply (got_le l f t m)]|]. split; [done|]. split; [done|].
          split; [|intros _; eapply vle_in; [apply made_in|apply (got_le l f t m (made w tv))]].
          intros V HV HV'. apply top_record; [done|]. eapply vle_in; [|exact HV'].
          eapply vle_in; [apply made_in|apply (got_le l f t m (made w tv))].
        * left. split.
          -- exists m, c'. split; [done|]. split; [lia|]. split; [done|]. split; [done|]. split; [done|]. split; [done|].
             intros Ha. simpl. rewrite Ha. apply vjoin_r.
          -- exists m, c'. split; [done|]. split; [done|]. lia.
      + destruct (length (hist l w)) as [|n] eqn:Hn; [done|]. destruct (t =? n)%nat eqn:Ht; [|done].
        assert (t = n) as -> by lia. clear Ht.
        pose (tv2 := got l o n m (made w tv)).
        assert (Hg : vle (t_cur (made w tv)) (t_cur tv2)) by (apply got_le).
        assert (Hg' : vle (t_cur tv2) (v_at l (S n) (t_cur tv2))) by apply v_at_le.
        pose proof (vle_trans _ _ _ Hg Hg') as Hg2.
        assert (Ha : acquires o = true -> vle (m_view m) (t_cur tv2)).
        { intros Ha. unfold tv2. simpl. rewrite Ha. apply vjoin_r. }
        assert (Hr : vle (m_view m) (t_read tv2)) by apply vjoin_r.
        intros [= <- <-]. split.
        * split; [eapply vle_trans; [apply (made_le w)|exact Hg2]|].
          split; [by destruct l|]. split; [by destruct l|].
          split; [|intros _; eapply vle_in; [apply (made_in w tv)|exact Hg2]].
          intros V HV HV'. simpl in HV'. apply top_append.
          -- apply top_record; [done|]. eapply vle_in; [|exact HV']. eapply vle_in; [apply (made_in w tv)|exact Hg2].
          -- replace (hist l (record KAtomic tv (set_arc c' w))) with (hist l w) by (by destruct l). rewrite Hn.
             etransitivity; [apply v_at_pos|]. by apply vle_pos.
        * right. exists m. eexists. split; [rewrite last_lookup, Hn; done|]. 
          split; [by destruct l|]. split; [clear -Hcm; destruct l; simpl in *; lia|].
          split; [|split; [|split; [|split; [|done]]]].
          -- split; [by destruct l|]. split; [by destruct l|]. split; [|by destruct l].
             rewrite Hn. simpl. apply v_at_pos.
          -- simpl. eapply vle_trans; [|apply v_at_le]. apply vjoin_l.
          -- intros Hrel. simpl. rewrite Hrel. eapply vle_trans; [|apply v_at_le]. apply vjoin_r.
          -- intros Hacq. simpl. eapply vle_trans; [by apply Ha|done].
    - destruct (go (w_arc w)) as [c'|] eqn:Hgo; [|done]. simpl. intros [= <- <-]. split.
      + split; [eapply vle_trans; [apply made_le|apply v_at_le]|].
        split; [by destruct l|]. split; [by destruct l|].
        split; [|intros _; eapply vle_in; [apply made_in|apply v_at_le]].
        intros V HV HV'. simpl in HV'. apply top_append.
        * apply top_record; [done|]. eapply vle_in; [|exact HV']. eapply vle_in; [apply made_in|apply v_at_le].
        * replace (hist l (record KAtomic tv (set_arc c' w))) with (hist l w) by (by destruct l).
          etransitivity; [apply v_at_pos|]. by apply vle_pos.
      + split; [by destruct l|]. eexists. split; [by destruct l|]. split; [by destruct l|]. split; [|by destruct l].
        simpl. apply v_at_pos.
    - destruct (go (w_arc w)) as [c'|] eqn:Hgo; [|done]. simpl. intros [= <- <-]. split; [|by simpl].
      split; [apply made_le|]. split; [done|]. split; [done|]. split; [|intros _; apply made_in].
      intros V HV HV'. apply top_record; [done|]. eapply vle_in; [|exact HV']. apply made_in.
  Qed.
End ord_inv.
