(** Invariant of every [Rc] history. *)
From Verif Require Export RcProofs.
From Coq Require Import ZifyBool ZifyNat ZifyN.

(** Number of handles in the table that are an [Rc] ([Weak]) of the box at block [b]. *)
Definition is_rc (b : N) (h : option handle) : bool :=
  match h with Some (HRc p) => bool_decide (sp_ptr p = Blk b) | _ => false end.
Definition is_weak (b : N) (h : option handle) : bool :=
  match h with Some (HWeak (Some p)) => bool_decide (sp_ptr p = Blk b) | _ => false end.
Definition rcs (b : N) (tab : list (option handle)) : N := cnt (is_rc b) tab.
Definition weaks (b : N) (tab : list (option handle)) : N := cnt (is_weak b) tab.

Section rc_run.
  Context {EN : Env} {T : Type} {EL : Elem T}.
  Local Existing Instance box_elem.
  Notation W := (world (rcbox T)).
  Notation St := (list T * W)%type.
  Notation Tab := (list (option handle)).
  Notation Rst := (Tab * St)%type.
  Implicit Types (w : W) (b : N) (p : sptr) (rb : rcbox T) (d : list T) (tab : Tab).

  Definition points (h : option handle) : option ptr :=
    match h with
    | Some (HRc p) => Some (sp_ptr p) | Some (HWeak (Some p)) => Some (sp_ptr p) | _ => None
    end.

  Lemma is_rc_points b h : points h <> Some (Blk b) -> is_rc b h = false /\ is_weak b h = false.
  Proof.
    destruct h as [[p|[p|]]|]; simpl; intros H; split; try done;
      apply bool_decide_eq_false_2; congruence.
  Qed.

  Lemma counts_other_push b c tab h :
    points h = Some (Blk b) -> b <> c ->
    rcs c (tab ++ [h]) = rcs c tab /\ weaks c (tab ++ [h]) = weaks c tab.
  Proof.
    intros Hp Hne. destruct (is_rc_points c h) as [H1 H2]; [congruence|].
    unfold rcs, weaks. rewrite !cnt_snoc, H1, H2. lia.
  Qed.
  Lemma counts_none_push c tab h :
    points h = None -> rcs c (tab ++ [h]) = rcs c tab /\ weaks c (tab ++ [h]) = weaks c tab.
  Proof.
    intros Hp. destruct (is_rc_points c h) as [H1 H2]; [congruence|].
    unfold rcs, weaks. rewrite !cnt_snoc, H1, H2. lia.
  Qed.
  Lemma counts_set c tab i h h' :
    tab !! i = Some h -> points h <> Some (Blk c) -> points h' <> Some (Blk c) ->
    rcs c (<[i := h']> tab) = rcs c tab /\ weaks c (<[i := h']> tab) = weaks c tab.
  Proof.
    intros Hi H1 H2. destruct (is_rc_points c h H1) as [E1 E2].
    destruct (is_rc_points c h' H2) as [E3 E4].
    pose proof (cnt_insert (is_rc c) tab i h h' Hi) as E5.
    pose proof (cnt_insert (is_weak c) tab i h h' Hi) as E6.
    rewrite E1, E3 in E5. rewrite E2, E4 in E6. unfold rcs, weaks. lia.
  Qed.
  Lemma push_rc b tab p : sp_ptr p = Blk b ->
    rcs b (tab ++ [Some (HRc p)]) = rcs b tab + 1 /\ weaks b (tab ++ [Some (HRc p)]) = weaks b tab.
  Proof.
    intros Hp. unfold rcs, weaks. rewrite !cnt_snoc. simpl. rewrite bool_decide_eq_true_2 by done. lia.
  Qed.
  Lemma push_weak b tab p : sp_ptr p = Blk b ->
    rcs b (tab ++ [Some (HWeak (Some p))]) = rcs b tab /\
    weaks b (tab ++ [Some (HWeak (Some p))]) = weaks b tab + 1.
  Proof.
    intros Hp. unfold rcs, weaks. rewrite !cnt_snoc. simpl. rewrite bool_decide_eq_true_2 by done. lia.
  Qed.
  Lemma set_from_rc b tab i p h' : tab !! i = Some (Some (HRc p)) -> sp_ptr p = Blk b ->
    points h' <> Some (Blk b) ->
    rcs b (<[i := h']> tab) + 1 = rcs b tab /\ weaks b (<[i := h']> tab) = weaks b tab.
  Proof.
    intros Hi Hp Hh. destruct (is_rc_points b h' Hh) as [E3 E4].
    pose proof (cnt_insert (is_rc b) tab i _ h' Hi) as E5.
    pose proof (cnt_insert (is_weak b) tab i _ h' Hi) as E6.
    rewrite E3 in E5. rewrite E4 in E6. simpl in E5, E6.
    rewrite bool_decide_eq_true_2 in E5 by done. unfold rcs, weaks. lia.
  Qed.
  Lemma set_from_weak b tab i p h' : tab !! i = Some (Some (HWeak (Some p))) -> sp_ptr p = Blk b ->
    points h' <> Some (Blk b) ->
    rcs b (<[i := h']> tab) = rcs b tab /\ weaks b (<[i := h']> tab) + 1 = weaks b tab.
  Proof.
    intros Hi Hp Hh. destruct (is_rc_points b h' Hh) as [E3 E4].
    pose proof (cnt_insert (is_rc b) tab i _ h' Hi) as E5.
    pose proof (cnt_insert (is_weak b) tab i _ h' Hi) as E6.
    rewrite E3 in E5. rewrite E4 in E6. simpl in E5, E6.
    rewrite bool_decide_eq_true_2 in E6 by done. unfold rcs, weaks. lia.
  Qed.
  Lemma set_to_rc b tab i h p : tab !! i = Some h -> sp_ptr p = Blk b -> points h <> Some (Blk b) ->
    rcs b (<[i := Some (HRc p)]> tab) = rcs b tab + 1 /\
    weaks b (<[i := Some (HRc p)]> tab) = weaks b tab.
  Proof.
    intros Hi Hp Hh. destruct (is_rc_points b h Hh) as [E3 E4].
    pose proof (cnt_insert (is_rc b) tab i _ (Some (HRc p)) Hi) as E5.
    pose proof (cnt_insert (is_weak b) tab i _ (Some (HRc p)) Hi) as E6.
    rewrite E3 in E5. rewrite E4 in E6. simpl in E5, E6.
    rewrite bool_decide_eq_true_2 in E5 by done. unfold rcs, weaks. lia.
  Qed.
  Lemma rcs_live b tab i p : tab !! i = Some (Some (HRc p)) -> sp_ptr p = Blk b -> 1 <= rcs b tab.
  Proof.
    intros Hi Hp. eapply cnt_lookup; [done|]. simpl. by apply bool_decide_eq_true_2.
  Qed.
  Lemma weaks_live b tab i p :
    tab !! i = Some (Some (HWeak (Some p))) -> sp_ptr p = Blk b -> 1 <= weaks b tab.
  Proof.
    intros Hi Hp. eapply cnt_lookup; [done|]. simpl. by apply bool_decide_eq_true_2.
  Qed.

  (** A box that still has its value counts its [Rc] handles, plus one once there were none. *)
  Definition count_ok (n s : N) (v : mdrop T) : Prop :=
    v = Moved \/ (n = s /\ 1 <= s) \/ n = s + 1.

  Definition inv (n0 : N) (s : Rst) : Prop :=
    let '(tab, (d, w)) := s in
    d = [] /\ fresh_ids w /\ n0 <= next_id w /\
    (forall i h q, tab !! i = Some h -> points h = Some q ->
       exists b, q = Blk b /\ n0 <= b /\ b < next_id w) /\
    (forall b, n0 <= b -> b < next_id w ->
       exists n v, box_at w b (RcBox n (weaks b tab) v) /\ count_ok n (rcs b tab) v).

  Definition extends w w' : Prop :=
    (forall b, is_Some (heap w !! b) -> is_Some (heap w' !! b)) /\
    exists l, events w' = events w ++ l /\ no_frees l.

  Lemma extends_refl w : extends w w.
  Proof. split; [done|]. exists []. rewrite app_nil_r. split; [done|constructor]. Qed.
  Lemma extends_trans w1 w2 w3 : extends w1 w2 -> extends w2 w3 -> extends w1 w3.
  Proof.
    intros [H1 (l1&E1&F1)] [H2 (l2&E2&F2)]. split; [naive_solver|].
    exists (l1 ++ l2). rewrite E2, E1, app_assoc. split; [done|]. by apply Forall_app.
  Qed.
  Lemma extends_setb b rb w : extends w (setb b rb w).
  Proof.
    split; [intros c; by rewrite setb_dom|]. exists [].
    rewrite app_nil_r, setb_events. split; [done|constructor].
  Qed.
  Lemma extends_same w w' : same_heap w w' -> extends w w'.
  Proof. intros (H&_&_&H'). split; [by rewrite H|done]. Qed.
  Lemma extends_new x w w' : new_box x w w' -> extends w w'.
  Proof.
    intros ((a&l&H)&_&_&H'). split; [|done]. intros b Hb. rewrite H.
    destruct (decide (next_id w = b)) as [->|]; [by rewrite lookup_insert|].
    by rewrite lookup_insert_ne.
  Qed.

  (** Changing one box and the table. *)
  Lemma inv_update n0 tab tab' w b rb n v :
    inv n0 (tab, ([], w)) -> box_at w b rb ->
    (forall i h q, tab' !! i = Some h -> points h = Some q ->
       exists b, q = Blk b /\ n0 <= b /\ b < next_id w) ->
    (forall c, c <> b -> rcs c tab' = rcs c tab /\ weaks c tab' = weaks c tab) ->
    count_ok n (rcs b tab') v ->
    inv n0 (tab', ([], setb b (RcBox n (weaks b tab') v) w)).
  Proof.
    intros (_&Hf&Hn&Hp&Hb) Hbox Hp' Hc Hok. split; [done|].
    split; [by apply setb_fresh|]. rewrite setb_next. split; [done|]. split; [done|].
    intros c Hc1 Hc2. destruct (decide (c = b)) as [->|Hne].
    - exists n, v. split; [by eapply box_at_setb|done].
    - destruct (Hb c Hc1 Hc2) as (m&u&H1&H2). destruct (Hc c Hne) as [E1 E2].
      exists m, u. rewrite E1, E2. split; [by apply box_at_setb_ne|done].
  Qed.

  Lemma inv_push n0 tab w h b rb n v :
    inv n0 (tab, ([], w)) -> box_at w b rb -> points h = Some (Blk b) -> n0 <= b -> b < next_id w ->
    count_ok n (rcs b (tab ++ [h])) v ->
    inv n0 (tab ++ [h], ([], setb b (RcBox n (weaks b (tab ++ [h])) v) w)).
  Proof.
    intros Hi Hb Hh H1 H2 Hok. eapply inv_update; try done.
    - intros i h' q Hl Hq. destruct Hi as (_&_&_&Hp&_).
      apply lookup_app_Some in Hl as [Hl|[_ Hl]]; [eauto|].
      apply list_lookup_singleton_Some in Hl as [_ <-]. exists b. by rewrite Hh in Hq; injection Hq as <-.
    - intros c Hc. by eapply counts_other_push.
  Qed.
  Lemma inv_kill n0 tab w i h b rb n v :
    inv n0 (tab, ([], w)) -> box_at w b rb -> tab !! i = Some h -> points h = Some (Blk b) ->
    count_ok n (rcs b (<[i := None]> tab)) v ->
    inv n0 (<[i := None]> tab, ([], setb b (RcBox n (weaks b (<[i := None]> tab)) v) w)).
  Proof.
    intros Hi Hb Hl Hh Hok. eapply inv_update; try done.
    - intros j h' q Hj Hq. destruct Hi as (_&_&_&Hp&_).
      destruct (decide (i = j)) as [->|].
      + rewrite list_lookup_insert in Hj by (by eapply lookup_lt_Some).
        injection Hj as <-. done.
      + rewrite list_lookup_insert_ne in Hj by done. eauto.
    - intros c Hc. eapply counts_set; [done|congruence|done].
  Qed.
  Lemma inv_same n0 tab w b rb n v :
    inv n0 (tab, ([], w)) -> box_at w b rb -> count_ok n (rcs b tab) v ->
    inv n0 (tab, ([], setb b (RcBox n (weaks b tab) v) w)).
  Proof.
    intros Hi Hb Hok. eapply inv_update; try done. by destruct Hi as (_&_&_&Hp&_).
  Qed.
  Lemma inv_heap n0 tab w w' : inv n0 (tab, ([], w)) -> same_heap w w' -> inv n0 (tab, ([], w')).
  Proof.
    intros (_&Hf&Hn&Hp&Hb) Hs. pose proof Hs as (_&En&_).
    split; [done|]. split; [by eapply same_heap_fresh|]. rewrite En. split_and!; try done.
    intros b H1 H2. destruct (Hb b H1 H2) as (m&u&H3&H4). exists m, u.
    split; [by eapply same_heap_box|done].
  Qed.
  Lemma inv_unused n0 tab w b : inv n0 (tab, ([], w)) -> next_id w <= b -> rcs b tab = 0 /\ weaks b tab = 0.
  Proof.
    intros (_&_&_&Hp&_) Hb. unfold rcs, weaks. split.
    - destruct (N.eq_dec (cnt (is_rc b) tab) 0) as [|Hne]; [done|].
      destruct (cnt_pos (is_rc b) tab) as (i&h&Hi&Hh); [lia|].
      destruct h as [[p|o]|]; simpl in Hh; try done. apply bool_decide_eq_true in Hh.
      destruct (Hp i _ (sp_ptr p) Hi) as (c&Hc&?&?); [done|]. rewrite Hh in Hc. injection Hc as <-. lia.
    - destruct (N.eq_dec (cnt (is_weak b) tab) 0) as [|Hne]; [done|].
      destruct (cnt_pos (is_weak b) tab) as (i&h&Hi&Hh); [lia|].
      destruct h as [[p|[p|]]|]; simpl in Hh; try done. apply bool_decide_eq_true in Hh.
      destruct (Hp i _ (sp_ptr p) Hi) as (c&Hc&?&?); [done|]. rewrite Hh in Hc. injection Hc as <-. lia.
  Qed.
  (** A new box whose handle is not yet in the table: all counts of the others stay. *)
  Lemma inv_new n0 tab tab' w w' x :
    inv n0 (tab, ([], w)) -> new_box x w w' ->
    (forall i h q, tab' !! i = Some h -> points h = Some q -> q = Blk (next_id w) \/
       exists j h', tab !! j = Some h' /\ points h' = Some q) ->
    (forall c, c <> next_id w -> rcs c tab' = rcs c tab /\ weaks c tab' = weaks c tab) ->
    rcs (next_id w) tab' = 1 -> weaks (next_id w) tab' = 0 ->
    inv n0 (tab', ([], w')).
  Proof.
    intros Hi Hnew Hp' Hc H1 H2. pose proof Hi as (_&Hf&Hn&Hp&Hb). pose proof Hnew as (_&En&_).
    split; [done|]. split; [by eapply new_box_fresh|]. rewrite En. split_and!.
    - lia.
    - intros i h q Hl Hq. destruct (Hp' i h q Hl Hq) as [->|(j&h'&Hj&Hq')].
      + exists (next_id w). split_and!; [done|lia|lia].
      + destruct (Hp j h' q Hj Hq') as (b&->&?&?). exists b. split_and!; [done|lia|lia].
    - intros b Hb1 Hb2. destruct (decide (b = next_id w)) as [->|Hne].
      + exists 1, (Val x). rewrite H1, H2. split; [by apply new_box_new|]. right. left. lia.
      + destruct (Hc b Hne) as [-> ->]. destruct (Hb b) as (m&u&H3&H4); [lia|lia|].
        exists m, u. split; [by eapply new_box_old|done].
  Qed.
End rc_run.
