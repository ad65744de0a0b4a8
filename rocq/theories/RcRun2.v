(** Every [Rc] call preserves the invariant. *)
From Verif Require Export RcRun.
From Coq Require Import ZifyBool ZifyNat ZifyN.

Section rc_step.
  Context {EN : Env} {T : Type} {EL : Elem T}.
  Local Existing Instance box_elem.
  Notation W := (world (rcbox T)).
  Notation St := (list T * W)%type.
  Notation Tab := (list (option handle)).
  Notation Rst := (Tab * St)%type.
  Implicit Types (w : W) (b : N) (p : sptr) (rb : rcbox T) (d : list T) (tab : Tab).

  (** The possible outcomes of a call. *)
  Definition ok_out {A} (o : res A) : Prop :=
    match o with
    | Ret _ => True
    | Panic e => e = PUnwrap \/ e = PNoEnv \/ e = PUser \/ e = PArith
    | UB u => u = UseAfterMove
    | Abort => False
    end.

  Lemma count_moved n s : count_ok n s (@Moved T).
  Proof. by left. Qed.

  Lemma inv_move n0 tab i h (s : St) :
    (i < length tab)%nat -> inv n0 (<[i := None]> tab ++ [h], s) -> inv n0 (<[i := h]> tab, s).
  Proof.
    destruct s as [d w]. intros Hlen (Hd&Hf&Hn&Hp&Hb).
    assert (Hc : forall f : option handle -> bool, f None = false ->
      cnt f (<[i := None]> tab ++ [h]) = cnt f (<[i := h]> tab)).
    { intros f Hf0. rewrite cnt_snoc. destruct (lookup_lt_is_Some_2 tab i Hlen) as [x Hx].
      pose proof (cnt_insert f tab i x None Hx) as E1.
      pose proof (cnt_insert f tab i x h Hx) as E2. rewrite Hf0 in E1. lia. }
    split_and!; try done.
    - intros j h' q Hj Hq. destruct (decide (i = j)) as [->|Hne].
      + rewrite list_lookup_insert in Hj by done. injection Hj as <-.
        apply (Hp (length tab) h q); [|done]. rewrite lookup_app_r by (by rewrite insert_length).
        by rewrite insert_length, Nat.sub_diag.
      + rewrite list_lookup_insert_ne in Hj by done. apply (Hp j h' q); [|done].
        rewrite lookup_app_l by (rewrite insert_length; by eapply lookup_lt_Some).
        by rewrite list_lookup_insert_ne.
    - intros b H1 H2. destruct (Hb b H1 H2) as (m&u&H3&H4). exists m, u.
      unfold rcs, weaks in *. rewrite Hc in H3 by done. by rewrite Hc in H4.
  Qed.

  Lemma inv_get n0 tab w i p :
    inv n0 (tab, ([], w)) -> tab !! i = Some (Some (HRc p)) ->
    exists b n v, sp_ptr p = Blk b /\ n0 <= b /\ b < next_id w /\
      box_at w b (RcBox n (weaks b tab) v) /\ count_ok n (rcs b tab) v /\ 1 <= rcs b tab.
  Proof.
    intros (_&_&_&Hp&Hb) Hi. destruct (Hp _ _ (sp_ptr p) Hi) as (b&E&?&?); [done|].
    destruct (Hb b) as (n&v&?&?); try done. exists b, n, v. split_and!; try done.
    by eapply rcs_live.
  Qed.
  Lemma inv_get_weak n0 tab w i p :
    inv n0 (tab, ([], w)) -> tab !! i = Some (Some (HWeak (Some p))) ->
    exists b n v, sp_ptr p = Blk b /\ n0 <= b /\ b < next_id w /\
      box_at w b (RcBox n (weaks b tab) v) /\ count_ok n (rcs b tab) v /\ 1 <= weaks b tab.
  Proof.
    intros (_&_&_&Hp&Hb) Hi. destruct (Hp _ _ (sp_ptr p) Hi) as (b&E&?&?); [done|].
    destruct (Hb b) as (n&v&?&?); try done. exists b, n, v. split_and!; try done.
    by eapply weaks_live.
  Qed.
  Lemma rcs_le b tab : rcs b tab <= llen tab. Proof. apply cnt_le. Qed.
  Lemma weaks_le b tab : weaks b tab <= llen tab. Proof. apply cnt_le. Qed.

  Lemma inv_push_none n0 tab w h : points h = None -> inv n0 (tab, ([], w)) -> inv n0 (tab ++ [h], ([], w)).
  Proof.
    intros Hh (_&Hf&Hn&Hp&Hb). split_and!; try done.
    - intros i h' q Hl Hq. apply lookup_app_Some in Hl as [Hl|[_ Hl]]; [eauto|].
      apply list_lookup_singleton_Some in Hl as [_ <-]. congruence.
    - intros b H1 H2. destruct (counts_none_push b tab h Hh) as [-> ->]. eauto.
  Qed.
  Lemma inv_kill_none n0 tab w i h :
    tab !! i = Some h -> points h = None -> inv n0 (tab, ([], w)) -> inv n0 (<[i := None]> tab, ([], w)).
  Proof.
    intros Hi Hh (_&Hf&Hn&Hp&Hb). split_and!; try done.
    - intros j h' q Hj Hq. destruct (decide (i = j)) as [->|].
      + rewrite list_lookup_insert in Hj by (by eapply lookup_lt_Some). by injection Hj as <-.
      + rewrite list_lookup_insert_ne in Hj by done. eauto.
    - intros b H1 H2. destruct (counts_set b tab i h None Hi) as [-> ->]; [congruence|done|]. eauto.
  Qed.
  Lemma inv_push_new n0 tab w w' x p :
    inv n0 (tab, ([], w)) -> new_box x w w' -> sp_ptr p = Blk (next_id w) ->
    inv n0 (tab ++ [Some (HRc p)], ([], w')).
  Proof.
    intros Hi Hnew Hp. destruct (inv_unused n0 tab w (next_id w) Hi) as [E1 E2]; [lia|].
    eapply inv_new; try done.
    - intros j h q Hl Hq. apply lookup_app_Some in Hl as [Hl|[_ Hl]]; [right; eauto|].
      apply list_lookup_singleton_Some in Hl as [_ <-]. left. simpl in Hq. congruence.
    - intros c Hc. eapply counts_other_push; [simpl; by rewrite Hp|done].
    - destruct (push_rc _ tab p Hp) as [-> _]. lia.
    - by destruct (push_rc _ tab p Hp) as [_ ->].
  Qed.

  Local Notation stepped n0 op tab w :=
    (exists o tab' w', rexec op (tab%list, ([], w)) = (o, (tab', ([], w'))) /\
       inv n0 (tab', ([], w')) /\ extends w w' /\ llen tab' <= llen tab + 1 /\ ok_out o).

  Lemma with_rc_other i (k : sptr -> M Rst (robs T)) tab s :
    (forall p, tab !! i <> Some (Some (HRc p))) -> with_rc i k (tab, s) = (Ret RIll, (tab, s)).
  Proof.
    intros H. unfold with_rc. simpl. destruct (tab !! i) as [[[p|o]|]|]; try done. by destruct (H p).
  Qed.
  Lemma with_weak_other i (k : option sptr -> M Rst (robs T)) tab s :
    (forall o, tab !! i <> Some (Some (HWeak o))) -> with_weak i k (tab, s) = (Ret RIll, (tab, s)).
  Proof.
    intros H. unfold with_weak. simpl. destruct (tab !! i) as [[[p|o]|]|]; try done. by destruct (H o).
  Qed.
  Lemma with_rc_some i (k : sptr -> M Rst (robs T)) tab s p :
    tab !! i = Some (Some (HRc p)) -> with_rc i k (tab, s) = k p (tab, s).
  Proof. intros H. unfold with_rc. simpl. by rewrite H. Qed.
  Lemma with_weak_some i (k : option sptr -> M Rst (robs T)) tab s o :
    tab !! i = Some (Some (HWeak o)) -> with_weak i k (tab, s) = k o (tab, s).
  Proof. intros H. unfold with_weak. simpl. by rewrite H. Qed.
  Lemma rc_or tab i : (exists p, tab !! i = Some (Some (HRc p))) \/ (forall p, tab !! i <> Some (Some (HRc p))).
  Proof. destruct (tab !! i) as [[[p|o]|]|]; [left; eauto|right; congruence..]. Qed.
  Lemma weak_or tab i : (exists o, tab !! i = Some (Some (HWeak o))) \/ (forall o, tab !! i <> Some (Some (HWeak o))).
  Proof. destruct (tab !! i) as [[[p|o]|]|]; [right; congruence|left; eauto|right; congruence..]. Qed.

  Lemma step_inv n0 op tab w :
    inv n0 (tab, ([], w)) -> llen tab + 2 <= usize_max -> stepped n0 op tab w.
  Proof.
    intros Hi Hlen.
    assert (Hill : forall tab', rexec op (tab, ([], w)) = (Ret RIll, (tab, ([], w))) ->
      tab' = tab -> stepped n0 op tab w).
    { intros tab' E ->. exists (Ret RIll), tab, w. split_and!; try done; [apply extends_refl|lia]. }
    assert (Hsame : forall a, rexec op (tab, ([], w)) = (Ret a, (tab, ([], w))) -> stepped n0 op tab w).
    { intros a E. exists (Ret a), tab, w. split_and!; try done; [apply extends_refl|lia]. }
    assert (Hub : rexec op (tab, ([], w)) = (UB UseAfterMove, (tab, ([], w))) -> stepped n0 op tab w).
    { intros E. exists (UB UseAfterMove), tab, w. split_and!; try done; [apply extends_refl|lia]. }
    destruct op as [x|i|i|i|i|i|i y|i y|i|i j| |i|i|i|i|i j].
    - (* new *)
      destruct (rc_new_ok x [] w) as (w'&[(r&Hr&E&Hs&_)|(p&E&Hp&Hnew)]).
      + exists (Panic r), tab, w'. split_and!; [|by eapply inv_heap|by apply extends_same|lia|].
        * unfold rexec. erewrite bind_Panic by (by apply on_snd_Ret). done.
        * destruct Hr as [[= ->]|[= ->]]; simpl; tauto.
      + exists (Ret RDone), (tab ++ [Some (HRc p)]), w'.
        split_and!; [|by eapply inv_push_new|by eapply extends_new|rewrite app_length; simpl; lia|done].
        unfold rexec. erewrite bind_Ret by (by apply on_snd_Ret). done.
    - (* clone *)
      destruct (rc_or tab i) as [[p Hp]|Hp]; [|by eapply Hill; [apply with_rc_other|]].
      destruct (inv_get n0 tab w i p Hi Hp) as (b&n&v&Eb&Hb1&Hb2&Hbox&Hok&Hlive).
      destruct (push_rc b tab p Eb) as [E1 E2]. pose proof (rcs_le b tab).
      destruct (inc_strong_any p b _ [] w Eb Hbox) as [[n' E]|E].
      2: { exists (Panic PArith), tab, w. split_and!; [|done|apply extends_refl|lia|simpl; tauto].
           unfold rexec. erewrite with_rc_some by done. erewrite bind_Panic; [done|].
           apply on_snd_Ret. unfold rc_clone. by erewrite bind_Panic. }
      exists (Ret RDone), (tab ++ [Some (HRc p)]), (setb b (RcBox n' (weaks b (tab ++ [Some (HRc p)])) v) w).
      split_and!; [|eapply inv_push; try done; [by rewrite <-Eb|]|apply extends_setb|rewrite app_length; simpl; lia|done].
      + unfold rexec. erewrite with_rc_some by done. erewrite bind_Ret.
        2: { apply on_snd_Ret. unfold rc_clone. by erewrite bind_Ret. }
        rewrite E2. done.
      + destruct Hok as [->|Hok]; [by left|]. right. rewrite E1.
        rewrite (inc_strong_ok p b _ [] w Eb Hbox) in E; simpl in *; [|lia].
        assert (n' = n + 1) as ->; [|lia].
        assert (box_at (setb b (RcBox (n + 1) (weaks b tab) v) w) b (RcBox n' (weaks b tab) v)) as Hx.
        { injection E as E. rewrite E. by eapply box_at_setb. }
        eapply box_at_fun in Hx; [|by eapply box_at_setb]. by injection Hx as ->.
    - (* drop *)
      destruct (rc_or tab i) as [[p Hp]|Hp]; [|by eapply Hill; [apply with_rc_other|]].
      destruct (inv_get n0 tab w i p Hi Hp) as (b&n&v&Eb&Hb1&Hb2&Hbox&Hok&Hlive).
      destruct (set_from_rc b tab i p None Hp Eb) as [E1 E2]; [done|].
      assert (exists n' o, rc_drop p ([], w) = (o, ([], setb b (RcBox n' (weaks b (<[i := None]> tab)) v) w)) /\
        ok_out o /\ count_ok n' (rcs b (<[i := None]> tab)) v) as (n'&o&E&Ho&Hn').
      { destruct Hok as [->|Hok].
        - destruct (rc_drop_any p b _ [] w Eb Hbox) as [n' [E|E]]; eexists n', _; rewrite E2;
            (split_and!; [exact E|simpl; tauto|by left]).
        - eexists _, _. rewrite E2. split_and!.
          + apply (rc_drop_ok p b _ [] w Eb Hbox). simpl. lia.
          + done.
          + right. unfold dropped. simpl. destruct (N.eqb_spec n 1); lia. }
      exists (match o with Ret _ => Ret RDone | Panic e => Panic e | Abort => Abort | UB u => UB u end),
        (<[i := None]> tab), (setb b (RcBox n' (weaks b (<[i := None]> tab)) v) w).
      split_and!; [|eapply inv_kill; try done; simpl; by rewrite <-Eb|apply extends_setb|rewrite insert_length; lia|by destruct o].
      unfold rexec. erewrite with_rc_some by done. unfold kill_handle. unfold bind at 1. simpl.
      unfold bind. rewrite (on_snd_Ret (rc_drop p) (<[i := None]> tab) ([], w) _ _ E). by destruct o.
    - (* downgrade *)
      destruct (rc_or tab i) as [[p Hp]|Hp]; [|by eapply Hill; [apply with_rc_other|]].
      destruct (inv_get n0 tab w i p Hi Hp) as (b&n&v&Eb&Hb1&Hb2&Hbox&Hok&Hlive).
      destruct (push_weak b tab p Eb) as [E1 E2]. pose proof (weaks_le b tab).
      exists (Ret RDone), (tab ++ [Some (HWeak (Some p))]), (setb b (RcBox n (weaks b (tab ++ [Some (HWeak (Some p))])) v) w).
      split_and!; [|eapply inv_push; try done; [by rewrite <-Eb|by rewrite E1]|apply extends_setb|rewrite app_length; simpl; lia|done].
      unfold rexec. erewrite with_rc_some by done. erewrite bind_Ret.
      2: { apply on_snd_Ret. unfold rc_downgrade.
           erewrite bind_Ret by (eapply inc_weak_ok; [done|done|simpl; lia]). reflexivity. }
      rewrite E2. done.
    - (* read *)
      destruct (rc_or tab i) as [[p Hp]|Hp]; [|by eapply Hill; [apply with_rc_other|]].
      destruct (inv_get n0 tab w i p Hi Hp) as (b&n&[x|]&Eb&Hb1&Hb2&Hbox&Hok&Hlive).
      + eapply Hsame. unfold rexec. erewrite with_rc_some by done.
        by erewrite bind_Ret by (apply on_snd_Ret; by eapply rc_as_ref_ok).
      + apply Hub. unfold rexec. erewrite with_rc_some by done.
        by erewrite bind_UB by (apply on_snd_Ret; by eapply rc_as_ref_moved).
    - (* counts *)
      destruct (rc_or tab i) as [[p Hp]|Hp]; [|by eapply Hill; [apply with_rc_other|]].
      destruct (inv_get n0 tab w i p Hi Hp) as (b&n&v&Eb&Hb1&Hb2&Hbox&Hok&Hlive).
      eapply Hsame. unfold rexec. erewrite with_rc_some by done.
      erewrite bind_Ret by (apply on_snd_Ret; by eapply rc_strong_count_ok).
      by erewrite bind_Ret by (apply on_snd_Ret; by eapply rc_weak_count_ok).
    - (* get_mut *)
      destruct (rc_or tab i) as [[p Hp]|Hp]; [|by eapply Hill; [apply with_rc_other|]].
      destruct (inv_get n0 tab w i p Hi Hp) as (b&n&v&Eb&Hb1&Hb2&Hbox&Hok&Hlive).
      destruct (is_single_ref (RcBox n (weaks b tab) v)) eqn:Es.
      2: { eapply Hsame. unfold rexec. erewrite with_rc_some by done.
           erewrite bind_Ret; [done|]. apply on_snd_Ret. unfold rc_get_mut.
           erewrite bind_Ret by (by eapply rc_inner_ok). by rewrite Es. }
      destruct v as [x|].
      2: { apply Hub. unfold rexec. erewrite with_rc_some by done.
           erewrite bind_UB; [done|]. apply on_snd_Ret. unfold rc_get_mut.
           erewrite bind_Ret by (by eapply rc_inner_ok). rewrite Es.
           by erewrite bind_UB by (by eapply rc_replace_moved). }
      eexists (Ret (RMaybe (Some x))), tab, _.
      split_and!; [|eapply (inv_same n0 tab w b _ n (Val y)); try done|apply extends_setb|lia|done].
      + unfold rexec. erewrite with_rc_some by done.
        erewrite bind_Ret; [done|]. apply on_snd_Ret. unfold rc_get_mut.
        erewrite bind_Ret by (by eapply rc_inner_ok). rewrite Es.
        by erewrite bind_Ret by (by eapply rc_replace_ok).
      + destruct Hok as [|Hok]; [done|]. by right.
    - (* make_mut *)
      destruct (rc_or tab i) as [[p Hp]|Hp]; [|by eapply Hill; [apply with_rc_other|]].
      destruct (inv_get n0 tab w i p Hi Hp) as (b&n&v&Eb&Hb1&Hb2&Hbox&Hok&Hlive).
      pose proof (lookup_lt_Some _ _ _ Hp) as Hil.
      assert (Hwrap : forall (r : res T) p' w', rc_make_mut y (p, ([], w)) = (r, (p', ([], w'))) ->
        inv n0 (<[i := Some (HRc p')]> tab, ([], w')) -> extends w w' -> ok_out r ->
        stepped n0 (RMakeMut i y) tab w).
      { intros r p' w' E H1 H2 H3.
        exists (match r with Ret x => Ret (RGot x) | Panic e => Panic e | Abort => Abort | UB u => UB u end),
          (<[i := Some (HRc p')]> tab), w'.
        split_and!; [|done|done|rewrite insert_length; lia|by destruct r].
        unfold rexec. erewrite with_rc_some by done. simpl. by rewrite E. }
      assert (Hid : <[i := Some (HRc p)]> tab = tab) by (by apply list_insert_id).
      (* second half: a box was allocated, then the old handle is dropped *)
      assert (Hassign : forall (m : M (sptr * St) unit) w1 w2 n1 v1 x q,
        m (p, ([], w)) = rc_assign q (p, ([], w2)) ->
        inv n0 (tab, ([], w1)) -> extends w w1 -> new_box x w1 w2 -> sp_ptr q = Blk (next_id w1) ->
        box_at w1 b (RcBox n1 (weaks b tab) v1) -> count_ok n1 (rcs b tab) v1 -> b < next_id w1 ->
        rc_make_mut y (p, ([], w)) = bind m (fun _ => this <- get_fst; on_snd (rc_replace this y)) (p, ([], w)) ->
        stepped n0 (RMakeMut i y) tab w).
      { intros m w1 w2 n1 v1 x q Em Hi1 Hext Hnew Hq Hbox1 Hok1 Hlt Emm.
        pose proof (inv_push_new n0 tab w1 w2 x q Hi1 Hnew Hq) as Hi2.
        pose proof Hi1 as (_&Hf1&_). pose proof Hnew as (_&Hnx&_).
        pose proof (new_box_old _ _ _ _ _ Hnew Hf1 Hbox1) as Hbox2.
        set (tab2 := tab ++ [Some (HRc q)]) in *.
        assert (Hp2 : tab2 !! i = Some (Some (HRc p))) by (unfold tab2; by rewrite lookup_app_l).
        destruct (counts_other_push (next_id w1) b tab (Some (HRc q))) as [Ec1 Ec2];
          [simpl; by rewrite Hq|lia|]. fold tab2 in Ec1, Ec2.
        destruct (set_from_rc b tab2 i p None Hp2 Eb) as [E1 E2]; [done|].
        assert (exists n' o, rc_drop p ([], w2) = (o, ([], setb b (RcBox n' (weaks b (<[i := None]> tab2)) v1) w2)) /\
          (o = Ret tt \/ o = Panic PArith) /\ count_ok n' (rcs b (<[i := None]> tab2)) v1) as (n'&o&E&Ho&Hn').
        { destruct Hok1 as [->|Hok1].
          - destruct (rc_drop_any p b _ [] w2 Eb Hbox2) as [n' [E|E]]; eexists n', _; rewrite E2, Ec2;
              (split_and!; [exact E|tauto|by left]).
          - eexists _, _. rewrite E2, Ec2. split_and!.
            + apply (rc_drop_ok p b _ [] w2 Eb Hbox2). simpl. lia.
            + by left.
            + right. unfold dropped. simpl. destruct (N.eqb_spec n1 1); lia. }
        set (w3 := setb b _ w2) in *.
        assert (Hi3 : inv n0 (<[i := Some (HRc q)]> tab, ([], w3))).
        { apply inv_move; [done|]. unfold w3.
          assert (Et : <[i := None]> tab ++ [Some (HRc q)] = <[i := None]> tab2).
          { unfold tab2. by rewrite insert_app_l. }
          rewrite Et. eapply (inv_kill n0 tab2 w2 i _ b); try done. simpl. by rewrite <-Eb. }
        assert (Hext3 : extends w w3).
        { eapply extends_trans; [done|]. eapply extends_trans; [by eapply extends_new|]. apply extends_setb. }
        assert (Em' : m (p, ([], w)) = (o, (q, ([], w3)))).
        { rewrite Em. unfold rc_assign. simpl. by rewrite E. }
        destruct Ho as [->| ->].
        2: { eapply (Hwrap (Panic PArith)); [|done|done|simpl; tauto]. rewrite Emm.
             by erewrite bind_Panic. }
        assert (Hbq : box_at w3 (next_id w1) (RcBox 1 0 (Val x))).
        { unfold w3. apply box_at_setb_ne; [lia|]. by apply new_box_new. }
        eapply (Hwrap (Ret x) q); [|eapply (inv_same n0 _ w3 (next_id w1) _ 1 (Val y))|eapply extends_trans; [done|apply extends_setb]|done]; try done.
        - rewrite Emm. erewrite bind_Ret by done. rewrite bind_get_fst. apply on_snd_Ret.
          erewrite rc_replace_ok by done.
          destruct (counts_set (next_id w1) tab i (Some (HRc p)) None Hp) as [_ Ew]; [simpl; rewrite Eb; intros [= ->]; lia|done|].
          destruct (inv_unused n0 tab w1 (next_id w1) Hi1) as [_ Ew0]; [lia|].
          destruct (set_to_rc (next_id w1) tab i (Some (HRc p)) q Hp Hq) as [_ ->]; [simpl; rewrite Eb; intros [= ->]; lia|].
          by rewrite Ew0.
        - destruct (set_to_rc (next_id w1) tab i (Some (HRc p)) q Hp Hq) as [Er _]; [simpl; rewrite Eb; intros [= ->]; lia|].
          destruct (inv_unused n0 tab w1 (next_id w1) Hi1) as [Er0 _]; [lia|]. right. left. lia. }
      (* allocation inside: *)
      assert (Hcount : on_snd (rc_strong_count p) (p, ([], w)) = (Ret n, (p, ([], w)))).
      { apply on_snd_Ret. exact (rc_strong_count_ok p b _ [] w Eb Hbox). }
      assert (Hcountw : on_snd (rc_weak_count p) (p, ([], w)) = (Ret (weaks b tab), (p, ([], w)))).
      { apply on_snd_Ret. exact (rc_weak_count_ok p b _ [] w Eb Hbox). }
      destruct (N.eqb_spec n 1) as [->|Hn1].
      + destruct (N.eqb_spec (weaks b tab) 0) as [Ew|Ew].
        * (* in place *)
          destruct v as [x|].
          2: { eapply (Hwrap (UB UseAfterMove) p w); [|by rewrite Hid|apply extends_refl|done].
               unfold rc_make_mut. rewrite bind_get_fst. erewrite bind_Ret by done. cbn iota.
               change (1 =? 1) with true. cbn iota.
               rewrite bind_assoc. erewrite bind_Ret by done. rewrite Ew. change (negb (0 =? 0)) with false.
               cbn iota. rewrite bind_ret, bind_get_fst. apply on_snd_Ret. by eapply rc_replace_moved. }
          eapply (Hwrap (Ret x) p); [| |apply extends_setb|done].
          -- unfold rc_make_mut. rewrite bind_get_fst. erewrite bind_Ret by done.
             change (1 =? 1) with true. cbn iota.
             rewrite bind_assoc. erewrite bind_Ret by done. rewrite Ew. change (negb (0 =? 0)) with false.
             cbn iota. rewrite bind_ret, bind_get_fst. apply on_snd_Ret. by eapply rc_replace_ok.
          -- rewrite Hid. eapply (inv_same n0 tab w b _ 1 (Val y)); [done|done|].
             destruct Hok as [|Hok]; [done|]. by right.
        * (* detach *)
          destruct v as [x|].
          2: { eapply (Hwrap (UB UseAfterMove) p w); [|by rewrite Hid|apply extends_refl|done].
               unfold rc_make_mut. rewrite bind_get_fst. erewrite bind_Ret by done.
               change (1 =? 1) with true. cbn iota.
               rewrite bind_assoc. erewrite bind_Ret by done. rewrite (proj2 (N.eqb_neq _ _) Ew). simpl.
               erewrite bind_UB; [done|]. erewrite bind_Ret by (apply on_snd_Ret; by eapply rc_inner_ok).
               by erewrite bind_UB. }
          set (w0 := setb b (RcBox 0 (weaks b tab) Moved) w).
          assert (Hi0 : inv n0 (tab, ([], w0))).
          { eapply inv_same; [done|done|by left]. }
          assert (Hb0 : box_at w0 b (RcBox 0 (weaks b tab) Moved)) by (by eapply box_at_setb).
          set (dm := (b0 <- on_snd (rc_inner p); x0 <- on_snd (maybe_ref (r_val b0));
             on_snd (rc_set p (RcBox (r_strong b0) (r_weak b0) Moved)) ;;
             on_snd (set_zero_strong p) ;; new <- on_snd (rc_new x0); rc_assign new) : M (sptr * St) unit).
          assert (Hdet : dm (p, ([], w)) = (new <- on_snd (rc_new x); rc_assign new) (p, ([], w0))).
          { unfold dm. erewrite bind_Ret by (apply on_snd_Ret; by eapply rc_inner_ok). simpl.
            erewrite bind_Ret by (apply on_snd_Ret; reflexivity).
            erewrite bind_Ret by (apply on_snd_Ret; by eapply rc_set_ok).
            erewrite bind_Ret.
            2: { apply on_snd_Ret. unfold set_zero_strong.
                 erewrite bind_Ret by (eapply rc_inner_ok; [done|by eapply box_at_setb]). simpl.
                 eapply rc_set_ok; [done|by eapply box_at_setb]. }
            rewrite setb_setb. done. }
          assert (Hmm : rc_make_mut y (p, ([], w)) =
            bind dm (fun _ => this <- get_fst; on_snd (rc_replace this y)) (p, ([], w))).
          { unfold rc_make_mut. rewrite bind_get_fst. erewrite bind_Ret by done.
            change (1 =? 1) with true. cbn iota.
            rewrite bind_assoc. erewrite bind_Ret by done. rewrite (proj2 (N.eqb_neq _ _) Ew). done. }
          destruct (rc_new_ok x [] w0) as (w'&[(r&Hr&E&Hs&_)|(q&E&Hq&Hnew)]).
          -- eapply (Hwrap (Panic r) p w').
             ++ rewrite Hmm. erewrite bind_Panic; [done|]. rewrite Hdet.
                by erewrite bind_Panic by (apply on_snd_Ret; exact E).
             ++ rewrite Hid. by eapply inv_heap.
             ++ eapply extends_trans; [apply extends_setb|]. by apply extends_same.
             ++ destruct Hr as [[= ->]|[= ->]]; simpl; tauto.
          -- eapply (Hassign dm w0 w' 0 Moved x q); [|done|apply extends_setb|done|done|exact Hb0|by left| |done].
             ++ rewrite Hdet. by erewrite bind_Ret by (apply on_snd_Ret; exact E).
             ++ unfold w0. by rewrite setb_next.
      + (* clone *)
        assert (Hpath : forall x (v0 : v = Val x),
          rc_make_mut y (p, ([], w)) =
          bind (c <- on_snd (clone_T x); new <- on_snd (rc_new c); rc_assign new)
               (fun _ => this <- get_fst; on_snd (rc_replace this y)) (p, ([], w))).
        { intros x ->. unfold rc_make_mut. rewrite bind_get_fst. erewrite bind_Ret by done.
          rewrite (proj2 (N.eqb_neq _ _) Hn1). rewrite bind_assoc.
          erewrite bind_Ret by (apply on_snd_Ret; by eapply rc_as_ref_ok). done. }
        destruct v as [x|].
        2: { eapply (Hwrap (UB UseAfterMove) p w); [|by rewrite Hid|apply extends_refl|done].
             unfold rc_make_mut. rewrite bind_get_fst. erewrite bind_Ret by done.
             rewrite (proj2 (N.eqb_neq _ _) Hn1). rewrite bind_assoc.
             by erewrite bind_UB by (apply on_snd_Ret; by eapply rc_as_ref_moved). }
        destruct (t_clone x) as [c|] eqn:Ecl.
        2: { eapply (Hwrap (Panic PUser) p w); [|by rewrite Hid|apply extends_refl|simpl; tauto].
             rewrite (Hpath x eq_refl). erewrite bind_Panic; [done|]. erewrite bind_Panic; [done|].
             apply on_snd_Ret. unfold clone_T. by rewrite Ecl. }
        destruct (rc_new_ok c [] w) as (w'&[(r&Hr&E&Hs&_)|(q&E&Hq&Hnew)]).
        * eapply (Hwrap (Panic r) p w').
          -- rewrite (Hpath x eq_refl). erewrite bind_Panic; [done|].
             erewrite bind_Ret by (apply on_snd_Ret; unfold clone_T; rewrite Ecl; reflexivity).
             by erewrite bind_Panic by (apply on_snd_Ret; exact E).
          -- rewrite Hid. by eapply inv_heap.
          -- by apply extends_same.
          -- destruct Hr as [[= ->]|[= ->]]; simpl; tauto.
        * eapply (Hassign _ w w' n (Val x) c q); [|done|apply extends_refl|done|done|done|done|done|by apply Hpath].
          erewrite bind_Ret by (apply on_snd_Ret; unfold clone_T; rewrite Ecl; reflexivity).
          by erewrite bind_Ret by (apply on_snd_Ret; exact E).
    - (* try_unwrap *)
      destruct (rc_or tab i) as [[p Hp]|Hp]; [|by eapply Hill; [apply with_rc_other|]].
      destruct (inv_get n0 tab w i p Hi Hp) as (b&n&v&Eb&Hb1&Hb2&Hbox&Hok&Hlive).
      destruct (N.eqb_spec n 1) as [->|Hn].
      2: { eapply Hsame. unfold rexec. erewrite with_rc_some by done.
           erewrite bind_Ret.
           2: { apply on_snd_Ret. unfold rc_try_unwrap.
                erewrite bind_Ret by (by eapply rc_strong_count_ok). simpl.
                rewrite (proj2 (N.eqb_neq _ _) Hn). reflexivity. }
           reflexivity. }
      destruct v as [x|].
      2: { apply Hub. unfold rexec. erewrite with_rc_some by done.
           erewrite bind_UB; [done|]. apply on_snd_Ret. unfold rc_try_unwrap.
           erewrite bind_Ret by (by eapply rc_strong_count_ok). simpl.
           change (1 =? 1) with true. cbn iota.
           by erewrite bind_Ret by (by eapply rc_inner_ok). }
      destruct (set_from_rc b tab i p None Hp Eb) as [E1 E2]; [done|].
      exists (Ret (RMaybe (Some x))), (<[i := None]> tab), (setb b (RcBox 1 (weaks b (<[i := None]> tab)) Moved) w).
      split_and!; [|eapply inv_kill; try done; [simpl; by rewrite <-Eb|by left]|apply extends_setb|rewrite insert_length; lia|done].
      unfold rexec. erewrite with_rc_some by done.
      erewrite bind_Ret.
      2: { apply on_snd_Ret. unfold rc_try_unwrap.
           erewrite bind_Ret by (by eapply rc_strong_count_ok). simpl.
           change (1 =? 1) with true. cbn iota.
           erewrite bind_Ret by (by eapply rc_inner_ok). simpl. rewrite bind_ret.
           erewrite bind_Ret by (by eapply rc_set_ok).
           erewrite bind_Ret by (eapply rc_drop_ok; [done|by eapply box_at_setb|simpl; lia]).
           simpl. rewrite setb_setb. reflexivity. }
      rewrite E2. done.
    - (* ptr_eq *)
      destruct (rc_or tab i) as [[p Hp]|Hp]; [|by eapply Hill; [apply with_rc_other|]].
      destruct (rc_or tab j) as [[q Hq]|Hq].
      2: { eapply Hill; [|done]. unfold rexec. erewrite with_rc_some by done. by apply with_rc_other. }
      eapply Hsame. unfold rexec. erewrite with_rc_some by done. by erewrite with_rc_some by done.
    - (* Weak::new *)
      exists (Ret RDone), (tab ++ [Some (HWeak None)]), w.
      split_and!; [done|by apply inv_push_none|apply extends_refl|rewrite app_length; simpl; lia|done].
    - (* upgrade *)
      destruct (weak_or tab i) as [[o Hp]|Hp]; [|by eapply Hill; [apply with_weak_other|]].
      destruct o as [p|].
      2: { eapply Hsame. unfold rexec. by erewrite with_weak_some by done. }
      destruct (inv_get_weak n0 tab w i p Hi Hp) as (b&n&v&Eb&Hb1&Hb2&Hbox&Hok&Hlive).
      destruct (N.eqb_spec n 0) as [->|Hn].
      { eapply Hsame. unfold rexec. erewrite with_weak_some by done. simpl.
        erewrite (bind_Ret _ _ _ None); [reflexivity|]. apply on_snd_Ret.
        by erewrite bind_Ret by (by eapply rc_inner_ok). }
      destruct (push_rc b tab p Eb) as [E1 E2]. pose proof (rcs_le b tab).
      assert (Hup : weak_upgrade (Some p) ([], w) = (inc_strong p ;; ret (Some p)) ([], w)).
      { simpl. erewrite bind_Ret by (by eapply rc_inner_ok). unfold is_dealloc. simpl.
        by rewrite (proj2 (N.eqb_neq _ _) Hn). }
      destruct (inc_strong_any p b _ [] w Eb Hbox) as [[n' E]|E].
      2: { exists (Panic PArith), tab, w. split_and!; [|done|apply extends_refl|lia|simpl; tauto].
           unfold rexec. erewrite with_weak_some by done. erewrite bind_Panic; [done|].
           apply on_snd_Ret. rewrite Hup. by erewrite bind_Panic. }
      exists (Ret (RBool true)), (tab ++ [Some (HRc p)]), (setb b (RcBox n' (weaks b (tab ++ [Some (HRc p)])) v) w).
      split_and!; [|eapply inv_push; try done; [by rewrite <-Eb|]|apply extends_setb|rewrite app_length; simpl; lia|done].
      + unfold rexec. erewrite with_weak_some by done. erewrite bind_Ret.
        2: { apply on_snd_Ret. rewrite Hup. by erewrite bind_Ret. }
        rewrite E2. done.
      + destruct Hok as [->|Hok]; [by left|]. right. rewrite E1.
        rewrite (inc_strong_ok p b _ [] w Eb Hbox) in E; simpl in *; [|lia].
        assert (n' = n + 1) as ->; [|lia].
        assert (box_at (setb b (RcBox (n + 1) (weaks b tab) v) w) b (RcBox n' (weaks b tab) v)) as Hx.
        { injection E as E. rewrite E. by eapply box_at_setb. }
        eapply box_at_fun in Hx; [|by eapply box_at_setb]. by injection Hx as ->.
    - (* weak clone *)
      destruct (weak_or tab i) as [[o Hp]|Hp]; [|by eapply Hill; [apply with_weak_other|]].
      destruct o as [p|].
      2: { exists (Ret RDone), (tab ++ [Some (HWeak None)]), w.
           split_and!; [|by apply inv_push_none|apply extends_refl|rewrite app_length; simpl; lia|done].
           unfold rexec. by erewrite with_weak_some by done. }
      destruct (inv_get_weak n0 tab w i p Hi Hp) as (b&n&v&Eb&Hb1&Hb2&Hbox&Hok&Hlive).
      destruct (push_weak b tab p Eb) as [E1 E2]. pose proof (weaks_le b tab).
      exists (Ret RDone), (tab ++ [Some (HWeak (Some p))]), (setb b (RcBox n (weaks b (tab ++ [Some (HWeak (Some p))])) v) w).
      split_and!; [|eapply inv_push; try done; [by rewrite <-Eb|by rewrite E1]|apply extends_setb|rewrite app_length; simpl; lia|done].
      unfold rexec. erewrite with_weak_some by done. erewrite bind_Ret.
      2: { apply on_snd_Ret. simpl.
           erewrite bind_Ret by (eapply inc_weak_ok; [done|done|simpl; lia]). reflexivity. }
      rewrite E2. done.
    - (* weak drop *)
      destruct (weak_or tab i) as [[o Hp]|Hp]; [|by eapply Hill; [apply with_weak_other|]].
      destruct o as [p|].
      2: { exists (Ret RDone), (<[i := None]> tab), w.
           split_and!; [|by eapply inv_kill_none|apply extends_refl|rewrite insert_length; lia|done].
           unfold rexec. by erewrite with_weak_some by done. }
      destruct (inv_get_weak n0 tab w i p Hi Hp) as (b&n&v&Eb&Hb1&Hb2&Hbox&Hok&Hlive).
      destruct (set_from_weak b tab i p None Hp Eb) as [E1 E2]; [done|].
      exists (Ret RDone), (<[i := None]> tab), (setb b (RcBox n (weaks b (<[i := None]> tab)) v) w).
      split_and!; [|eapply inv_kill; try done; [simpl; by rewrite <-Eb|by rewrite E1]|apply extends_setb|rewrite insert_length; lia|done].
      unfold rexec. erewrite with_weak_some by done. unfold kill_handle. unfold bind at 1. simpl.
      erewrite bind_Ret.
      2: { apply on_snd_Ret. simpl.
           erewrite bind_Ret by (eapply dec_weak_ok; [done|done|simpl; lia]). simpl.
           erewrite bind_Ret by (eapply rc_strong_count_ok; [done|by eapply box_at_setb]). simpl.
           rewrite (proj2 (N.eqb_neq (weaks b tab) 0)) by lia. reflexivity. }
      replace (weaks b tab - 1) with (weaks b (<[i := None]> tab)) by lia. done.
    - (* weak counts *)
      destruct (weak_or tab i) as [[o Hp]|Hp]; [|by eapply Hill; [apply with_weak_other|]].
      destruct o as [p|].
      2: { eapply Hsame. unfold rexec. by erewrite with_weak_some by done. }
      destruct (inv_get_weak n0 tab w i p Hi Hp) as (b&n&v&Eb&Hb1&Hb2&Hbox&Hok&Hlive).
      eapply Hsame. unfold rexec. erewrite with_weak_some by done. simpl.
      erewrite bind_Ret by (apply on_snd_Ret; by eapply rc_strong_count_ok).
      by erewrite bind_Ret by (apply on_snd_Ret; by eapply rc_weak_count_ok).
    - (* weak ptr_eq *)
      destruct (weak_or tab i) as [[p Hp]|Hp]; [|by eapply Hill; [apply with_weak_other|]].
      destruct (weak_or tab j) as [[q Hq]|Hq].
      2: { eapply Hill; [|done]. unfold rexec. erewrite with_weak_some by done. by apply with_weak_other. }
      eapply Hsame. unfold rexec. erewrite with_weak_some by done. by erewrite with_weak_some by done.
  Qed.
End rc_step.
