(** Histories that orphan no [Weak] follow the handle specification. *)
From Verif Require Export RcRun2.
From Coq Require Import ZifyBool ZifyNat ZifyN.

Section rc_refine.
  Context {EN : Env} {T : Type} {EL : Elem T}.
  Local Existing Instance box_elem.
  Notation W := (world (rcbox T)).
  Notation Tab := (list (option handle)).
  Implicit Types (w : W) (b : N) (p : sptr) (rb : rcbox T) (tab : Tab) (st : rcspec T).

  Definition hcorr (n0 : N) (h : option shandle) (h' : option handle) : Prop :=
    match h, h' with
    | None, None => True
    | Some (SRc c), Some (HRc p) => sp_ptr p = Blk (n0 + N.of_nat c)
    | Some (SWeak None), Some (HWeak None) => True
    | Some (SWeak (Some c)), Some (HWeak (Some p)) => sp_ptr p = Blk (n0 + N.of_nat c)
    | _, _ => False
    end.

  Definition R (n0 : N) st tab w : Prop :=
    fresh_ids w /\ next_id w = n0 + llen (s_cells st) /\
    Forall2 (hcorr n0) (s_tab st) tab /\
    (forall c, 0 < strong_of st c -> exists x, s_cells st !! c = Some (Some x) /\
       box_at w (n0 + N.of_nat c) (RcBox (strong_of st c) (weak_of st c) (Val x))) /\
    (forall c, 0 < weak_of st c -> 0 < strong_of st c).

  (** *** Counts of the specification *)
  Notation one b := (if b : bool then 1 else 0).
  Lemma strong_add st h c :
    strong_of (add_handle h st) c = strong_of st c + one (bool_decide (h = SRc c)).
  Proof.
    unfold strong_of. simpl. rewrite cnt_snoc. f_equal.
    by destruct (bool_decide_reflect (h = SRc c)) as [->|H]; [rewrite bool_decide_eq_true_2|
      rewrite bool_decide_eq_false_2 by congruence].
  Qed.
  Lemma weak_add st h c :
    weak_of (add_handle h st) c = weak_of st c + one (bool_decide (h = SWeak (Some c))).
  Proof.
    unfold weak_of. simpl. rewrite cnt_snoc. f_equal.
    by destruct (bool_decide_reflect (h = SWeak (Some c))) as [->|H]; [rewrite bool_decide_eq_true_2|
      rewrite bool_decide_eq_false_2 by congruence].
  Qed.
  Lemma strong_kill st i h c : s_tab st !! i = Some (Some h) ->
    strong_of (set_handle i None st) c + one (bool_decide (h = SRc c)) = strong_of st c.
  Proof.
    intros Hi. unfold strong_of. simpl.
    pose proof (cnt_insert (fun h => bool_decide (h = Some (SRc c))) _ _ _ None Hi) as E. simpl in E.
    destruct (bool_decide_reflect (h = SRc c)) as [->|H];
      [rewrite bool_decide_eq_true_2 in E by done|rewrite bool_decide_eq_false_2 in E by congruence]; lia.
  Qed.
  Lemma weak_kill st i h c : s_tab st !! i = Some (Some h) ->
    weak_of (set_handle i None st) c + one (bool_decide (h = SWeak (Some c))) = weak_of st c.
  Proof.
    intros Hi. unfold weak_of. simpl.
    pose proof (cnt_insert (fun h => bool_decide (h = Some (SWeak (Some c)))) _ _ _ None Hi) as E. simpl in E.
    destruct (bool_decide_reflect (h = SWeak (Some c))) as [->|H];
      [rewrite bool_decide_eq_true_2 in E by done|rewrite bool_decide_eq_false_2 in E by congruence]; lia.
  Qed.
  Lemma strong_live st i c : s_tab st !! i = Some (Some (SRc c)) -> 1 <= strong_of st c.
  Proof. intros H. eapply cnt_lookup; [done|]. by apply bool_decide_eq_true_2. Qed.
  Lemma weak_live st i c : s_tab st !! i = Some (Some (SWeak (Some c))) -> 1 <= weak_of st c.
  Proof. intros H. eapply cnt_lookup; [done|]. by apply bool_decide_eq_true_2. Qed.

  (** *** Updates *)
  Lemma R_update n0 st st' tab tab' w c0 rb rb' :
    R n0 st tab w -> box_at w (n0 + N.of_nat c0) rb ->
    Forall2 (hcorr n0) (s_tab st') tab' -> length (s_cells st') = length (s_cells st) ->
    (forall c, c <> c0 -> strong_of st' c = strong_of st c /\ weak_of st' c = weak_of st c /\
       s_cells st' !! c = s_cells st !! c) ->
    (0 < strong_of st' c0 -> exists x, s_cells st' !! c0 = Some (Some x) /\
       rb' = RcBox (strong_of st' c0) (weak_of st' c0) (Val x)) ->
    (0 < weak_of st' c0 -> 0 < strong_of st' c0) ->
    R n0 st' tab' (setb (n0 + N.of_nat c0) rb' w).
  Proof.
    intros (Hf&Hn&Ht&Hs&Hw) Hb Ht' Hl Ho Hs0 Hw0. split; [by apply setb_fresh|].
    rewrite setb_next, Hl. split; [done|]. split; [done|]. split.
    - intros c Hc. destruct (decide (c = c0)) as [->|Hne].
      + destruct (Hs0 Hc) as (x&Hx&->). exists x. split; [done|]. by eapply box_at_setb.
      + destruct (Ho c Hne) as (E1&E2&E3). rewrite E1 in Hc. destruct (Hs c Hc) as (x&Hx&Hbx).
        exists x. rewrite E1, E2, E3. split; [done|]. apply box_at_setb_ne; [lia|done].
    - intros c. destruct (decide (c = c0)) as [->|Hne]; [done|].
      destruct (Ho c Hne) as (E1&E2&E3). rewrite E1, E2. apply Hw.
  Qed.

  Lemma R_get n0 st tab w i c :
    R n0 st tab w -> s_tab st !! i = Some (Some (SRc c)) ->
    exists p x, tab !! i = Some (Some (HRc p)) /\ sp_ptr p = Blk (n0 + N.of_nat c) /\
      1 <= strong_of st c /\ s_cells st !! c = Some (Some x) /\
      box_at w (n0 + N.of_nat c) (RcBox (strong_of st c) (weak_of st c) (Val x)).
  Proof.
    intros (Hf&Hn&Ht&Hs&Hw) Hi. pose proof (strong_live st i c Hi) as Hl.
    destruct (Forall2_lookup_l _ _ _ _ _ Ht Hi) as ([[p|o]|]&Hp&Hc); try done.
    destruct (Hs c) as (x&?&?); [lia|]. by exists p, x.
  Qed.
  Lemma R_get_weak n0 st tab w i c :
    R n0 st tab w -> s_tab st !! i = Some (Some (SWeak (Some c))) ->
    exists p x, tab !! i = Some (Some (HWeak (Some p))) /\ sp_ptr p = Blk (n0 + N.of_nat c) /\
      1 <= strong_of st c /\ 1 <= weak_of st c /\ s_cells st !! c = Some (Some x) /\
      box_at w (n0 + N.of_nat c) (RcBox (strong_of st c) (weak_of st c) (Val x)).
  Proof.
    intros (Hf&Hn&Ht&Hs&Hw) Hi. pose proof (weak_live st i c Hi) as Hl.
    destruct (Forall2_lookup_l _ _ _ _ _ Ht Hi) as ([[p|[p|]]|]&Hp&Hc); try done.
    specialize (Hw c). destruct (Hs c) as (x&?&?); [lia|]. exists p, x. split_and!; try done. lia.
  Qed.
  Lemma R_get_null n0 st tab w i :
    R n0 st tab w -> s_tab st !! i = Some (Some (SWeak None)) ->
    tab !! i = Some (Some (HWeak None)).
  Proof.
    intros (Hf&Hn&Ht&Hs&Hw) Hi.
    by destruct (Forall2_lookup_l _ _ _ _ _ Ht Hi) as ([[p|[p|]]|]&Hp&Hc).
  Qed.
  Lemma R_not_rc n0 st tab w i :
    R n0 st tab w -> (forall c, s_tab st !! i <> Some (Some (SRc c))) ->
    forall p, tab !! i <> Some (Some (HRc p)).
  Proof.
    intros (Hf&Hn&Ht&Hs&Hw) Hi p Hp.
    destruct (Forall2_lookup_r _ _ _ _ _ Ht Hp) as ([[c|[c|]]|]&Hc&Hh); try done. by apply (Hi c).
  Qed.
  Lemma R_not_weak n0 st tab w i :
    R n0 st tab w -> (forall o, s_tab st !! i <> Some (Some (SWeak o))) ->
    forall o, tab !! i <> Some (Some (HWeak o)).
  Proof.
    intros (Hf&Hn&Ht&Hs&Hw) Hi o Hp.
    destruct (Forall2_lookup_r _ _ _ _ _ Ht Hp) as ([[c|o']|]&Hc&Hh); try done. by apply (Hi o').
  Qed.
  Lemma R_same n0 st tab w w' : R n0 st tab w -> same_heap w w' -> R n0 st tab w'.
  Proof.
    intros (Hf&Hn&Ht&Hs&Hw) Hsh. pose proof Hsh as (_&En&_).
    split; [by eapply same_heap_fresh|]. rewrite En. split_and!; try done.
    intros c Hc. destruct (Hs c Hc) as (x&?&?). exists x. split; [done|]. by eapply same_heap_box.
  Qed.
  Lemma R_counts_le n0 st tab w c : R n0 st tab w -> strong_of st c <= llen tab /\ weak_of st c <= llen tab.
  Proof.
    intros (Hf&Hn&Ht&Hs&Hw). apply Forall2_length in Ht. unfold strong_of, weak_of.
    rewrite <-Ht. split; apply cnt_le.
  Qed.
  Lemma R_unused n0 st tab w c : R n0 st tab w -> (length (s_cells st) <= c)%nat ->
    strong_of st c = 0 /\ weak_of st c = 0.
  Proof.
    intros (Hf&Hn&Ht&Hs&Hw) Hc.
    assert (strong_of st c = 0) as E.
    { destruct (N.eq_dec (strong_of st c) 0); [done|]. destruct (Hs c) as (x&Hx&_); [lia|].
      apply lookup_lt_Some in Hx. lia. }
    split; [done|]. specialize (Hw c). lia.
  Qed.
  Lemma R_new n0 st tab w w' x p :
    R n0 st tab w -> new_box x w w' -> sp_ptr p = Blk (next_id w) ->
    R n0 (add_handle (SRc (length (s_cells st))) (add_cell x st)) (tab ++ [Some (HRc p)]) w'.
  Proof.
    intros HR Hnew Hp. pose proof HR as (Hf&Hn&Ht&Hs&Hw). pose proof Hnew as (_&En&_).
    assert (Hns : forall c, strong_of (add_handle (SRc (length (s_cells st))) (add_cell x st)) c =
      strong_of st c + one (bool_decide (length (s_cells st) = c))).
    { intros c. rewrite strong_add. f_equal. destruct (bool_decide_reflect (length (s_cells st) = c)).
      - subst. by rewrite bool_decide_eq_true_2. - rewrite bool_decide_eq_false_2; [done|congruence]. }
    assert (Hnw : forall c, weak_of (add_handle (SRc (length (s_cells st))) (add_cell x st)) c = weak_of st c).
    { intros c. rewrite weak_add, bool_decide_eq_false_2 by done. by rewrite N.add_0_r. }
    split; [by eapply new_box_fresh|]. split; [|split; [|split]].
    - rewrite En, Hn. simpl. rewrite app_length. simpl. lia.
    - simpl. apply Forall2_app; [done|]. constructor; [|constructor]. simpl. by rewrite Hp, Hn.
    - intros c. rewrite Hns, Hnw. intros Hc. simpl.
      destruct (bool_decide_reflect (length (s_cells st) = c)) as [Hec|Hne].
      + subst c. exists x. rewrite lookup_app_r, Nat.sub_diag by lia. split; [done|].
        destruct (R_unused n0 st tab w (length (s_cells st)) HR) as [-> ->]; [lia|].
        rewrite <-Hn. by apply new_box_new.
      + destruct (Hs c) as (y&Hy&Hb); [lia|]. exists y. rewrite N.add_0_r.
        rewrite lookup_app_l by (by eapply lookup_lt_Some). split; [done|]. by eapply new_box_old.
    - intros c. rewrite Hns, Hnw. intros Hc. specialize (Hw c Hc). lia.
  Qed.
  Lemma R_move n0 cells ts tab w i h h' : (i < length ts)%nat ->
    R n0 (RcSpec cells (<[i := None]> ts ++ [h])) (<[i := None]> tab ++ [h']) w ->
    R n0 (RcSpec cells (<[i := h]> ts)) (<[i := h']> tab) w.
  Proof.
    intros Hlt (Hf&Hn&Ht&Hs&Hw). simpl in *.
    assert (Hc : forall f : option shandle -> bool, f None = false ->
      cnt f (<[i := None]> ts ++ [h]) = cnt f (<[i := h]> ts)).
    { intros f Hf0. rewrite cnt_snoc. destruct (lookup_lt_is_Some_2 ts i Hlt) as [x Hx].
      pose proof (cnt_insert f ts i x None Hx) as E1.
      pose proof (cnt_insert f ts i x h Hx) as E2. rewrite Hf0 in E1. lia. }
    assert (E1 : forall c, strong_of (RcSpec cells (<[i := None]> ts ++ [h])) c =
                           strong_of (RcSpec cells (<[i := h]> ts)) c).
    { intros c. unfold strong_of. simpl. apply Hc. by apply bool_decide_eq_false_2. }
    assert (E2 : forall c, weak_of (RcSpec cells (<[i := None]> ts ++ [h])) c =
                           weak_of (RcSpec cells (<[i := h]> ts)) c).
    { intros c. unfold weak_of. simpl. apply Hc. by apply bool_decide_eq_false_2. }
    split_and!; try done.
    - simpl. apply Forall2_app_inv in Ht as [Ht1 Ht2].
      2: { apply Forall2_length in Ht. rewrite !app_length, !insert_length in Ht. simpl in Ht.
           rewrite !insert_length. lia. }
      replace (<[i := h]> ts) with (<[i := h]> (<[i := None]> ts)) by apply list_insert_insert.
      replace (<[i := h']> tab) with (<[i := h']> (<[i := None]> tab)) by apply list_insert_insert.
      apply Forall2_insert; [done|]. by inversion Ht2.
    - intros c. rewrite <-E1, <-E2. apply Hs.
    - intros c. rewrite <-E1, <-E2. apply Hw.
  Qed.

  Lemma spec_rc_or st i :
    (exists c, s_tab st !! i = Some (Some (SRc c))) \/ (forall c, s_tab st !! i <> Some (Some (SRc c))).
  Proof. destruct (s_tab st !! i) as [[[p|o]|]|]; [left; eauto|right; congruence..]. Qed.
  Lemma spec_weak_or st i :
    (exists c, s_tab st !! i = Some (Some (SWeak c))) \/ (forall c, s_tab st !! i <> Some (Some (SWeak c))).
  Proof. destruct (s_tab st !! i) as [[[p|o]|]|]; [right; congruence|left; eauto|right; congruence..]. Qed.
  Lemma match_not_rc {A} st i (k : nat -> A) (z : A) :
    (forall c, s_tab st !! i <> Some (Some (SRc c))) ->
    match s_tab st !! i with Some (Some (SRc c)) => k c | _ => z end = z.
  Proof. intros H. destruct (s_tab st !! i) as [[[p|o]|]|]; try done. by destruct (H p). Qed.
  Lemma match_not_weak {A} st i (k : option nat -> A) (z : A) :
    (forall c, s_tab st !! i <> Some (Some (SWeak c))) ->
    match s_tab st !! i with Some (Some (SWeak c)) => k c | _ => z end = z.
  Proof. intros H. destruct (s_tab st !! i) as [[[p|o]|]|]; try done. by destruct (H o). Qed.

  Definition allocates w : Prop := (forall n k, e_aok n k = true) /\ is_Some (cur_scope w).

  Lemma step_refines n0 st tab w op :
    R n0 st tab w -> ~ orphans st op -> llen tab + 2 <= usize_max ->
    exists r o st' tab' w',
      rexec op (tab, ([], w)) = (o, (tab', ([], w'))) /\
      rspec t_clone r st op = (o, st') /\ R n0 st' tab' w' /\ defined_out o /\
      (r = None \/ refusal r) /\ (allocates w -> r = None) /\ cur_scope w' = cur_scope w /\
      llen tab' <= llen tab + 1.
  Proof.
    intros HR Horph Hlen.
    assert (Hill : rexec op (tab, ([], w)) = (Ret RIll, (tab, ([], w))) ->
      rspec t_clone None st op = (Ret RIll, st) ->
      exists r o st' tab' w', rexec op (tab, ([], w)) = (o, (tab', ([], w'))) /\
      rspec t_clone r st op = (o, st') /\ R n0 st' tab' w' /\ defined_out o /\
      (r = None \/ refusal r) /\ (allocates w -> r = None) /\ cur_scope w' = cur_scope w /\
      llen tab' <= llen tab + 1).
    { intros E1 E2. exists None, (Ret RIll), st, tab, w. split_and!; try done; [by left|lia]. }
    (* a call that neither changes the memory nor the table *)
    assert (Hpure : forall o, rexec op (tab, ([], w)) = (o, (tab, ([], w))) ->
      rspec t_clone None st op = (o, st) -> defined_out o ->
      exists r o st' tab' w', rexec op (tab, ([], w)) = (o, (tab', ([], w'))) /\
      rspec t_clone r st op = (o, st') /\ R n0 st' tab' w' /\ defined_out o /\
      (r = None \/ refusal r) /\ (allocates w -> r = None) /\ cur_scope w' = cur_scope w /\
      llen tab' <= llen tab + 1).
    { intros o E1 E2 Ho. exists None, o, st, tab, w. split_and!; try done; [by left|lia]. }
    assert (Hstep : forall o st' tab' c rb, rexec op (tab, ([], w)) = (o, (tab', ([], setb c rb w))) ->
      rspec t_clone None st op = (o, st') -> R n0 st' tab' (setb c rb w) -> defined_out o ->
      llen tab' <= llen tab + 1 ->
      exists r o st' tab' w', rexec op (tab, ([], w)) = (o, (tab', ([], w'))) /\
      rspec t_clone r st op = (o, st') /\ R n0 st' tab' w' /\ defined_out o /\
      (r = None \/ refusal r) /\ (allocates w -> r = None) /\ cur_scope w' = cur_scope w /\
      llen tab' <= llen tab + 1).
    { intros o st' tab' c rb E1 E2 HR' Ho Hl. exists None, o, st', tab', (setb c rb w).
      split_and!; try done; [by left|apply setb_cur]. }
    destruct op as [x|i|i|i|i|i|i y|i y|i|i j| |i|i|i|i|i j].
    - (* new *)
      destruct (rc_new_ok x [] w) as (w'&[(r&Hr&E&Hs&Hal)|(p&E&Hp&Hnew)]).
      + exists (Some r), (Panic r), st, tab, w'.
        split_and!; try done; [|by eapply R_same|by right| |by destruct Hs as (_&_&?&_)|lia].
        * unfold rexec. erewrite bind_Panic by (by apply on_snd_Ret). done.
        * intros [H1 H2]. by destruct (Hal H1 H2).
      + exists None, (Ret RDone), (add_handle (SRc (length (s_cells st))) (add_cell x st)),
          (tab ++ [Some (HRc p)]), w'.
        split_and!; try done; [|by eapply R_new|by left|by destruct Hnew as (_&_&?&_)|rewrite app_length; simpl; lia].
        unfold rexec. erewrite bind_Ret by (by apply on_snd_Ret). done.
    - (* clone *)
      destruct (spec_rc_or st i) as [[c Hc]|Hc].
      2: { apply Hill; [apply with_rc_other; by eapply R_not_rc|]. unfold rspec. by rewrite match_not_rc. }
      destruct (R_get n0 st tab w i c HR Hc) as (p&x&Hp&Eb&Hlive&Hx&Hbox).
      destruct (R_counts_le n0 st tab w c HR) as [Hle _].
      eapply (Hstep (Ret RDone) (add_handle (SRc c) st) (tab ++ [Some (HRc p)])).
      + unfold rexec. erewrite with_rc_some by done. erewrite bind_Ret; cycle 1. {
        apply on_snd_Ret. unfold rc_clone.
        erewrite bind_Ret by (eapply inc_strong_ok; [done|done|simpl; lia]). reflexivity. } reflexivity.
      + unfold rspec. by rewrite Hc.
      + pose proof HR as (_&_&Ht&_).
        eapply (R_update n0 st _ tab); try done.
        * simpl. apply Forall2_app; [done|]. by constructor; [|constructor].
        * intros c' Hne. rewrite strong_add, weak_add, !bool_decide_eq_false_2 by congruence.
          by rewrite !N.add_0_r.
        * intros _. exists x. split; [done|]. rewrite strong_add, weak_add. repeat case_bool_decide; try congruence. simpl. by rewrite ?N.add_0_r.
        * rewrite strong_add. rewrite bool_decide_eq_true_2 by done. lia.
      + done.
      + rewrite app_length; simpl; lia.
    - (* drop *)
      destruct (spec_rc_or st i) as [[c Hc]|Hc].
      2: { apply Hill; [apply with_rc_other; by eapply R_not_rc|]. unfold rspec. by rewrite match_not_rc. }
      destruct (R_get n0 st tab w i c HR Hc) as (p&x&Hp&Eb&Hlive&Hx&Hbox).
      eapply (Hstep (Ret RDone) (set_handle i None st) (<[i := None]> tab)).
      + unfold rexec. erewrite with_rc_some by done. unfold kill_handle. unfold bind at 1. simpl.
        erewrite bind_Ret; cycle 1. { apply on_snd_Ret. by eapply rc_drop_ok. } reflexivity.
      + unfold rspec. by rewrite Hc.
      + pose proof HR as (_&_&Ht&_).
        assert (Hno : strong_of st c = 1 -> weak_of st c = 0).
        { intros E. destruct (N.eq_dec (weak_of st c) 0); [done|]. destruct Horph. exists i, c. tauto. }
        pose proof (strong_kill st i _ c Hc) as E1. pose proof (weak_kill st i _ c Hc) as E2.
        rewrite bool_decide_eq_true_2 in E1 by done. rewrite bool_decide_eq_false_2 in E2 by done.
        eapply (R_update n0 st _ tab); try done.
        * simpl. by apply Forall2_insert.
        * intros c' Hne. pose proof (strong_kill st i _ c' Hc) as E3.
          pose proof (weak_kill st i _ c' Hc) as E4.
          rewrite bool_decide_eq_false_2 in E3 by congruence.
          rewrite bool_decide_eq_false_2 in E4 by done. split_and!; [lia|lia|done].
        * intros Hpos. exists x. split; [done|]. simpl. unfold dropped.
          destruct (N.eqb_spec (strong_of st c) 1); [lia|]. f_equal; lia.
        * intros Hpos. lia.
      + done.
      + rewrite insert_length; lia.
    - (* downgrade *)
      destruct (spec_rc_or st i) as [[c Hc]|Hc].
      2: { apply Hill; [apply with_rc_other; by eapply R_not_rc|]. unfold rspec. by rewrite match_not_rc. }
      destruct (R_get n0 st tab w i c HR Hc) as (p&x&Hp&Eb&Hlive&Hx&Hbox).
      destruct (R_counts_le n0 st tab w c HR) as [_ Hle].
      eapply (Hstep (Ret RDone) (add_handle (SWeak (Some c)) st) (tab ++ [Some (HWeak (Some p))])).
      + unfold rexec. erewrite with_rc_some by done. erewrite bind_Ret; cycle 1. {
        apply on_snd_Ret. unfold rc_downgrade.
        erewrite bind_Ret by (eapply inc_weak_ok; [done|done|simpl; lia]). reflexivity. } reflexivity.
      + unfold rspec. by rewrite Hc.
      + pose proof HR as (_&_&Ht&_).
        eapply (R_update n0 st _ tab); try done.
        * simpl. apply Forall2_app; [done|]. by constructor; [|constructor].
        * intros c' Hne. rewrite strong_add, weak_add, !bool_decide_eq_false_2 by congruence.
          by rewrite !N.add_0_r.
        * intros _. exists x. split; [done|]. rewrite strong_add, weak_add. repeat case_bool_decide; try congruence. simpl. by rewrite ?N.add_0_r.
        * rewrite strong_add. lia.
      + done.
      + rewrite app_length; simpl; lia.
    - (* read *)
      destruct (spec_rc_or st i) as [[c Hc]|Hc].
      2: { apply Hill; [apply with_rc_other; by eapply R_not_rc|]. unfold rspec. by rewrite match_not_rc. }
      destruct (R_get n0 st tab w i c HR Hc) as (p&x&Hp&Eb&Hlive&Hx&Hbox).
      eapply (Hpure (Ret (RGot x))); [| |done].
      + unfold rexec. erewrite with_rc_some by done.
        by erewrite bind_Ret by (apply on_snd_Ret; by eapply rc_as_ref_ok).
      + unfold rspec. by rewrite Hc, Hx.
    - (* counts *)
      destruct (spec_rc_or st i) as [[c Hc]|Hc].
      2: { apply Hill; [apply with_rc_other; by eapply R_not_rc|]. unfold rspec. by rewrite match_not_rc. }
      destruct (R_get n0 st tab w i c HR Hc) as (p&x&Hp&Eb&Hlive&Hx&Hbox).
      eapply (Hpure (Ret (RNums (strong_of st c) (weak_of st c)))); [| |done].
      + unfold rexec. erewrite with_rc_some by done.
        erewrite bind_Ret by (apply on_snd_Ret; by eapply rc_strong_count_ok).
        by erewrite bind_Ret by (apply on_snd_Ret; by eapply rc_weak_count_ok).
      + unfold rspec. by rewrite Hc.
    - (* get_mut *)
      destruct (spec_rc_or st i) as [[c Hc]|Hc].
      2: { apply Hill; [apply with_rc_other; by eapply R_not_rc|]. unfold rspec. by rewrite match_not_rc. }
      destruct (R_get n0 st tab w i c HR Hc) as (p&x&Hp&Eb&Hlive&Hx&Hbox).
      destruct ((strong_of st c =? 1) && (weak_of st c =? 0)) eqn:Es.
      + eapply (Hstep (Ret (RMaybe (Some x))) (set_cell c (Some y) st) tab).
        * unfold rexec. erewrite with_rc_some by done.
          erewrite bind_Ret; cycle 1. { apply on_snd_Ret. unfold rc_get_mut.
          erewrite bind_Ret by (by eapply rc_inner_ok). unfold is_single_ref. simpl. rewrite Es.
          erewrite bind_Ret by (by eapply rc_replace_ok). reflexivity. } reflexivity.
        * unfold rspec. by rewrite Hc, Hx, Es.
        * pose proof HR as (_&_&Ht&_&Hw). eapply (R_update n0 st _ tab); try done.
          -- simpl. by rewrite insert_length.
          -- intros c' Hne. split_and!; [done|done|]. simpl. by rewrite list_lookup_insert_ne.
          -- intros _. exists y. simpl. rewrite list_lookup_insert by (by eapply lookup_lt_Some). done.
          -- apply Hw.
        * done.
        * lia.
      + eapply (Hpure (Ret (RMaybe None))); [| |done].
        * unfold rexec. erewrite with_rc_some by done.
          erewrite bind_Ret; cycle 1. { apply on_snd_Ret. unfold rc_get_mut.
          erewrite bind_Ret by (by eapply rc_inner_ok). unfold is_single_ref. simpl. by rewrite Es. } reflexivity.
        * unfold rspec. by rewrite Hc, Hx, Es.
    - (* make_mut *)
      destruct (spec_rc_or st i) as [[c Hc]|Hc].
      2: { apply Hill; [apply with_rc_other; by eapply R_not_rc|]. unfold rspec. by rewrite match_not_rc. }
      destruct (R_get n0 st tab w i c HR Hc) as (p&x&Hp&Eb&Hlive&Hx&Hbox).
      pose proof (lookup_lt_Some _ _ _ Hp) as Hil.
      assert (Hid : <[i := Some (HRc p)]> tab = tab) by (by apply list_insert_id).
      assert (Hno : strong_of st c = 1 -> weak_of st c = 0).
      { intros E. destruct (N.eq_dec (weak_of st c) 0); [done|]. destruct Horph. exists i, c.
        split; [|done]. right. right. by exists y. }
      assert (Hcount : on_snd (rc_strong_count p) (p, ([], w)) = (Ret (strong_of st c), (p, ([], w)))).
      { apply on_snd_Ret. exact (rc_strong_count_ok p _ _ [] w Eb Hbox). }
      destruct (N.eqb_spec (strong_of st c) 1) as [E1|E1].
      + specialize (Hno E1).
        eapply (Hstep (Ret (RGot x)) (set_cell c (Some y) st) tab).
        * unfold rexec. erewrite with_rc_some by done. simpl.
          assert (rc_make_mut y (p, ([], w)) =
            (Ret x, (p, ([], setb (n0 + N.of_nat c) (RcBox (strong_of st c) (weak_of st c) (Val y)) w)))) as ->.
          { unfold rc_make_mut. rewrite bind_get_fst. erewrite bind_Ret by done.
            rewrite (proj2 (N.eqb_eq _ _) E1). rewrite bind_assoc.
            erewrite bind_Ret by (apply on_snd_Ret; by eapply rc_weak_count_ok). simpl.
            rewrite Hno. change (negb (0 =? 0)) with false. cbn iota.
            rewrite bind_ret, bind_get_fst. apply on_snd_Ret. rewrite <-Hno. by eapply rc_replace_ok. }
          by rewrite Hid.
        * unfold rspec. rewrite Hc, Hx, E1, Hno. done.
        * pose proof HR as (_&_&Ht&_&Hw). eapply (R_update n0 st _ tab); try done.
          -- simpl. by rewrite insert_length.
          -- intros c' Hne. split_and!; [done|done|]. simpl. by rewrite list_lookup_insert_ne.
          -- intros _. exists y. simpl. rewrite list_lookup_insert by (by eapply lookup_lt_Some). done.
          -- apply Hw.
        * done.
        * lia.
      + assert (Hpath : rc_make_mut y (p, ([], w)) =
          bind (c <- on_snd (clone_T x); new <- on_snd (rc_new c); rc_assign new)
               (fun _ => this <- get_fst; on_snd (rc_replace this y)) (p, ([], w))).
        { unfold rc_make_mut. rewrite bind_get_fst. erewrite bind_Ret by done.
          rewrite (proj2 (N.eqb_neq _ _) E1). rewrite bind_assoc.
          erewrite bind_Ret by (apply on_snd_Ret; by eapply rc_as_ref_ok). done. }
        destruct (t_clone x) as [cx|] eqn:Ecl.
        2: { eapply (Hpure (Panic PUser)); [| |done].
             - unfold rexec. erewrite with_rc_some by done. simpl. rewrite Hpath.
               erewrite bind_Panic.
               2: { erewrite bind_Panic; [done|]. apply on_snd_Ret. unfold clone_T. by rewrite Ecl. }
               simpl. by rewrite Hid.
             - unfold rspec. by rewrite Hc, Hx, (proj2 (N.eqb_neq _ _) E1), Ecl. }
        assert (Hcl : on_snd (clone_T x) (p, ([], w)) = (Ret cx, (p, ([], w)))).
        { apply on_snd_Ret. unfold clone_T. by rewrite Ecl. }
        destruct (rc_new_ok cx [] w) as (w'&[(r&Hr&E&Hs&Hal)|(q&E&Hq&Hnew)]).
        * exists (Some r), (Panic r), st, tab, w'.
          split_and!; try done; [| |by eapply R_same|by right| |by destruct Hs as (_&_&?&_)|lia].
          -- unfold rexec. erewrite with_rc_some by done. simpl. rewrite Hpath.
             erewrite bind_Panic.
             2: { erewrite bind_Ret by done. by erewrite bind_Panic by (apply on_snd_Ret; exact E). }
             simpl. by rewrite Hid.
          -- unfold rspec. by rewrite Hc, Hx, (proj2 (N.eqb_neq _ _) E1), Ecl.
          -- intros [H1 H2]. by destruct (Hal H1 H2).
        * pose proof (R_new n0 st tab w w' cx q HR Hnew Hq) as HR1.
          set (st1 := add_handle _ _) in *. set (tab1 := tab ++ [Some (HRc q)]) in *.
          pose proof HR as (Hf&Hnx&_). pose proof Hx as Hcl'. apply lookup_lt_Some in Hcl'.
          assert (Hc1 : s_tab st1 !! i = Some (Some (SRc c))).
          { simpl. rewrite lookup_app_l; [done|]. by eapply lookup_lt_Some. }
          destruct (R_get n0 st1 tab1 w' i c HR1 Hc1) as (p'&x'&Hp'&Eb'&Hlive'&Hx'&Hbox').
          assert (strong_of st1 c = strong_of st c) as Es1.
          { unfold st1. rewrite strong_add, bool_decide_eq_false_2.
            - by rewrite N.add_0_r. - intros [= ?]. lia. }
          assert (weak_of st1 c = weak_of st c) as Ew1.
          { unfold st1. rewrite weak_add, bool_decide_eq_false_2 by done. by rewrite N.add_0_r. }
          set (w2 := setb (n0 + N.of_nat c) (RcBox (strong_of st c - 1) (weak_of st c) (Val x)) w').
          assert (Hd : rc_drop p ([], w') = (Ret tt, ([], w2))).
          { pose proof (new_box_old _ _ _ _ _ Hnew Hf Hbox) as Hb2.
            rewrite (rc_drop_ok p _ _ [] w' Eb Hb2) by (simpl; lia). simpl. unfold dropped.
            by rewrite (proj2 (N.eqb_neq _ _) E1). }
          set (st2 := set_handle i None st1). set (tab2 := <[i := None]> tab1).
          assert (HR2 : R n0 st2 tab2 w2).
          { pose proof (strong_kill st1 i _ c Hc1) as K1. pose proof (weak_kill st1 i _ c Hc1) as K2.
            rewrite bool_decide_eq_true_2 in K1 by done. rewrite bool_decide_eq_false_2 in K2 by done.
            pose proof HR1 as (_&_&Ht1&_).
            eapply (R_update n0 st1 _ tab1); try done.
            - by apply Forall2_insert.
            - intros c' Hne. pose proof (strong_kill st1 i _ c' Hc1) as E3.
              pose proof (weak_kill st1 i _ c' Hc1) as E4.
              rewrite bool_decide_eq_false_2 in E3 by congruence.
              rewrite bool_decide_eq_false_2 in E4 by done. unfold st2. split_and!; [lia|lia|done].
            - intros _. exists x. split; [simpl; by rewrite lookup_app_l|]. unfold st2. f_equal; lia.
            - unfold st2. lia. }
          set (c2 := length (s_cells st)).
          assert (HR3 : R n0 (set_handle i (Some (SRc c2)) (add_cell cx st)) (<[i := Some (HRc q)]> tab) w2).
          { unfold set_handle. apply R_move; [simpl; by eapply lookup_lt_Some|].
            unfold st2, tab2, st1, tab1, set_handle, add_handle in HR2. simpl in HR2.
            rewrite !insert_app_l in HR2 by (by eapply lookup_lt_Some). done. }
          set (st3 := set_handle i (Some (SRc c2)) (add_cell cx st)) in *.
          assert (Hc3 : s_tab st3 !! i = Some (Some (SRc c2))).
          { simpl. rewrite list_lookup_insert; [done|]. by eapply lookup_lt_Some. }
          destruct (R_get n0 st3 _ w2 i c2 HR3 Hc3) as (q'&x3&Hq'&Eq'&Hlive3&Hx3&Hbox3).
          rewrite list_lookup_insert in Hq' by done. injection Hq' as <-.
          assert (x3 = cx) as ->.
          { simpl in Hx3. unfold c2 in Hx3. rewrite lookup_app_r, Nat.sub_diag in Hx3 by lia.
            by injection Hx3 as <-. }
          exists None, (Ret (RGot cx)), (set_handle i (Some (SRc c2)) (add_cell y st)),
            (<[i := Some (HRc q)]> tab),
            (setb (n0 + N.of_nat c2) (RcBox (strong_of st3 c2) (weak_of st3 c2) (Val y)) w2).
          split_and!; try done.
          -- unfold rexec. erewrite with_rc_some by done. simpl. rewrite Hpath.
             erewrite bind_Ret.
             2: { erewrite bind_Ret by done. erewrite bind_Ret by (apply on_snd_Ret; exact E).
                  unfold rc_assign. simpl. rewrite Hd. reflexivity. }
             rewrite bind_get_fst. erewrite on_snd_Ret by (by eapply rc_replace_ok). done.
          -- unfold rspec. by rewrite Hc, Hx, (proj2 (N.eqb_neq _ _) E1), Ecl.
          -- pose proof HR3 as (_&_&Ht3&_&Hw3). eapply (R_update n0 st3 _ _); try done.
             ++ simpl. by rewrite !app_length.
             ++ intros c' Hne. split_and!; [done|done|]. simpl.
                destruct (decide (c' < c2)%nat); [by rewrite !lookup_app_l|].
                rewrite !(proj2 (lookup_ge_None _ _)); [done|..]; rewrite app_length; simpl; unfold c2 in *; lia.
             ++ intros _. exists y. split; [|done]. simpl. by rewrite lookup_app_r, Nat.sub_diag by lia.
             ++ apply Hw3.
          -- by left.
          -- rewrite setb_cur. unfold w2. rewrite setb_cur. by destruct Hnew as (_&_&?&_).
          -- rewrite insert_length. lia.
    - (* try_unwrap *)
      destruct (spec_rc_or st i) as [[c Hc]|Hc].
      2: { apply Hill; [apply with_rc_other; by eapply R_not_rc|]. unfold rspec. by rewrite match_not_rc. }
      destruct (R_get n0 st tab w i c HR Hc) as (p&x&Hp&Eb&Hlive&Hx&Hbox).
      destruct (N.eqb_spec (strong_of st c) 1) as [E1|E1].
      + assert (Hno : weak_of st c = 0).
        { destruct (N.eq_dec (weak_of st c) 0); [done|]. destruct Horph. exists i, c. tauto. }
        eapply (Hstep (Ret (RMaybe (Some x))) (set_handle i None (set_cell c None st)) (<[i := None]> tab)).
        * unfold rexec. erewrite with_rc_some by done.
          erewrite bind_Ret; cycle 1. { apply on_snd_Ret. unfold rc_try_unwrap.
          erewrite bind_Ret by (by eapply rc_strong_count_ok). simpl.
          rewrite (proj2 (N.eqb_eq _ _) E1).
          erewrite bind_Ret by (by eapply rc_inner_ok). simpl. rewrite bind_ret.
          erewrite bind_Ret by (by eapply rc_set_ok).
          erewrite bind_Ret by (eapply rc_drop_ok; [done|by eapply box_at_setb|simpl; lia]).
          simpl. rewrite setb_setb. reflexivity. } reflexivity.
        * unfold rspec. by rewrite Hc, Hx, (proj2 (N.eqb_eq _ _) E1).
        * pose proof HR as (_&_&Ht&_).
          assert (Hc' : s_tab (set_cell c None st) !! i = Some (Some (SRc c))) by done.
          pose proof (strong_kill _ i _ c Hc') as K1. pose proof (weak_kill _ i _ c Hc') as K2.
          rewrite bool_decide_eq_true_2 in K1 by done. rewrite bool_decide_eq_false_2 in K2 by done.
          change (strong_of (set_cell c None st) c) with (strong_of st c) in K1.
          change (weak_of (set_cell c None st) c) with (weak_of st c) in K2.
          eapply (R_update n0 st _ tab); try done.
          -- simpl. by apply Forall2_insert.
          -- simpl. by rewrite insert_length.
          -- intros c' Hne. pose proof (strong_kill _ i _ c' Hc') as E3.
             pose proof (weak_kill _ i _ c' Hc') as E4.
             rewrite bool_decide_eq_false_2 in E3 by congruence.
             rewrite bool_decide_eq_false_2 in E4 by done.
             change (strong_of (set_cell c None st) c') with (strong_of st c') in E3.
             change (weak_of (set_cell c None st) c') with (weak_of st c') in E4.
             split_and!; [lia|lia|]. simpl. by rewrite list_lookup_insert_ne.
          -- intros Hpos. lia.
          -- intros Hpos. lia.
        * done.
        * rewrite insert_length; lia.
      + eapply (Hpure (Ret (RMaybe None))); [| |done].
        * unfold rexec. erewrite with_rc_some by done.
          erewrite bind_Ret.
          2: { apply on_snd_Ret. unfold rc_try_unwrap.
               erewrite bind_Ret by (by eapply rc_strong_count_ok). simpl.
               rewrite (proj2 (N.eqb_neq _ _) E1). reflexivity. }
          reflexivity.
        * unfold rspec. by rewrite Hc, Hx, (proj2 (N.eqb_neq _ _) E1).
    - (* ptr_eq *)
      destruct (spec_rc_or st i) as [[c Hc]|Hc].
      2: { apply Hill; [apply with_rc_other; by eapply R_not_rc|]. unfold rspec. by rewrite match_not_rc. }
      destruct (R_get n0 st tab w i c HR Hc) as (p&x&Hp&Eb&_).
      destruct (spec_rc_or st j) as [[c' Hc']|Hc'].
      2: { apply Hill.
           - unfold rexec. erewrite with_rc_some by done. apply with_rc_other. by eapply R_not_rc.
           - unfold rspec. rewrite Hc. by rewrite match_not_rc. }
      destruct (R_get n0 st tab w j c' HR Hc') as (q&x'&Hq&Eq&_).
      eapply (Hpure (Ret (RBool (bool_decide (c = c'))))); [| |done].
      + unfold rexec. erewrite with_rc_some by done. erewrite with_rc_some by done.
        unfold rc_ptr_eq, bind, on_snd, ret. simpl. rewrite Eb, Eq. do 3 f_equal.
        destruct (bool_decide_reflect (c = c')) as [->|H]; [by apply bool_decide_eq_true_2|].
        apply bool_decide_eq_false_2. intros [= ?]. lia.
      + unfold rspec. by rewrite Hc, Hc'.
    - (* Weak::new *)
      exists None, (Ret RDone), (add_handle (SWeak None) st), (tab ++ [Some (HWeak None)]), w.
      pose proof HR as (Hf&Hn&Ht&Hs&Hw).
      assert (E : forall c, strong_of (add_handle (SWeak None) st) c = strong_of st c /\
                            weak_of (add_handle (SWeak None) st) c = weak_of st c).
      { intros c. rewrite strong_add, weak_add, !bool_decide_eq_false_2 by done. by rewrite !N.add_0_r. }
      split_and!; try done; [|by left|rewrite app_length; simpl; lia].
      split_and!; try done.
      + simpl. apply Forall2_app; [done|]. by constructor; [|constructor].
      + intros c. destruct (E c) as [-> ->]. apply Hs.
      + intros c. destruct (E c) as [-> ->]. apply Hw.
    - (* upgrade *)
      destruct (spec_weak_or st i) as [[[c|] Hc]|Hc].
      3: { apply Hill; [apply with_weak_other; by eapply R_not_weak|]. unfold rspec. by rewrite match_not_weak. }
      2: { pose proof (R_get_null n0 st tab w i HR Hc) as Hp. eapply (Hpure (Ret (RBool false))); [| |done].
           - unfold rexec. by erewrite with_weak_some by done.
           - unfold rspec. by rewrite Hc. }
      destruct (R_get_weak n0 st tab w i c HR Hc) as (p&x&Hp&Eb&Hlive&Hlw&Hx&Hbox).
      destruct (R_counts_le n0 st tab w c HR) as [Hle _].
      eapply (Hstep (Ret (RBool true)) (add_handle (SRc c) st) (tab ++ [Some (HRc p)])).
      + unfold rexec. erewrite with_weak_some by done. erewrite (bind_Ret _ _ _ (Some p)); cycle 1. {
        apply on_snd_Ret. simpl. erewrite bind_Ret by (by eapply rc_inner_ok).
        unfold is_dealloc. simpl. rewrite (proj2 (N.eqb_neq (strong_of st c) 0)) by lia. simpl.
        erewrite bind_Ret by (eapply inc_strong_ok; [done|done|simpl; lia]). reflexivity. } reflexivity.
      + unfold rspec. rewrite Hc. by rewrite (proj2 (N.eqb_neq (strong_of st c) 0)) by lia.
      + pose proof HR as (_&_&Ht&_).
        eapply (R_update n0 st _ tab); try done.
        * simpl. apply Forall2_app; [done|]. by constructor; [|constructor].
        * intros c' Hne. rewrite strong_add, weak_add, !bool_decide_eq_false_2 by congruence.
          by rewrite !N.add_0_r.
        * intros _. exists x. split; [done|]. rewrite strong_add, weak_add. repeat case_bool_decide; try congruence. simpl. by rewrite ?N.add_0_r.
        * rewrite strong_add. rewrite bool_decide_eq_true_2 by done. lia.
      + done.
      + rewrite app_length; simpl; lia.
    - (* weak clone *)
      destruct (spec_weak_or st i) as [[[c|] Hc]|Hc].
      3: { apply Hill; [apply with_weak_other; by eapply R_not_weak|]. unfold rspec. by rewrite match_not_weak. }
      2: { pose proof (R_get_null n0 st tab w i HR Hc) as Hp.
           exists None, (Ret RDone), (add_handle (SWeak None) st), (tab ++ [Some (HWeak None)]), w.
           pose proof HR as (Hf&Hn&Ht&Hs&Hw).
           assert (E : forall c, strong_of (add_handle (SWeak None) st) c = strong_of st c /\
                                 weak_of (add_handle (SWeak None) st) c = weak_of st c).
           { intros c. rewrite strong_add, weak_add, !bool_decide_eq_false_2 by done. by rewrite !N.add_0_r. }
           split_and!; try done; [| | |by left|rewrite app_length; simpl; lia].
           - unfold rexec. by erewrite with_weak_some by done.
           - unfold rspec. by rewrite Hc.
           - split_and!; try done.
             + simpl. apply Forall2_app; [done|]. by constructor; [|constructor].
             + intros c. destruct (E c) as [-> ->]. apply Hs.
             + intros c. destruct (E c) as [-> ->]. apply Hw. }
      destruct (R_get_weak n0 st tab w i c HR Hc) as (p&x&Hp&Eb&Hlive&Hlw&Hx&Hbox).
      destruct (R_counts_le n0 st tab w c HR) as [_ Hle].
      eapply (Hstep (Ret RDone) (add_handle (SWeak (Some c)) st) (tab ++ [Some (HWeak (Some p))])).
      + unfold rexec. erewrite with_weak_some by done. erewrite bind_Ret; cycle 1. {
        apply on_snd_Ret. simpl.
        erewrite bind_Ret by (eapply inc_weak_ok; [done|done|simpl; lia]). reflexivity. } reflexivity.
      + unfold rspec. by rewrite Hc.
      + pose proof HR as (_&_&Ht&_).
        eapply (R_update n0 st _ tab); try done.
        * simpl. apply Forall2_app; [done|]. by constructor; [|constructor].
        * intros c' Hne. rewrite strong_add, weak_add, !bool_decide_eq_false_2 by congruence.
          by rewrite !N.add_0_r.
        * intros _. exists x. split; [done|]. rewrite strong_add, weak_add. repeat case_bool_decide; try congruence. simpl. by rewrite ?N.add_0_r.
        * rewrite strong_add. lia.
      + done.
      + rewrite app_length; simpl; lia.
    - (* weak drop *)
      destruct (spec_weak_or st i) as [[[c|] Hc]|Hc].
      3: { apply Hill; [apply with_weak_other; by eapply R_not_weak|]. unfold rspec. by rewrite match_not_weak. }
      2: { pose proof (R_get_null n0 st tab w i HR Hc) as Hp.
           exists None, (Ret RDone), (set_handle i None st), (<[i := None]> tab), w.
           pose proof HR as (Hf&Hn&Ht&Hs&Hw).
           assert (E : forall c, strong_of (set_handle i None st) c = strong_of st c /\
                                 weak_of (set_handle i None st) c = weak_of st c).
           { intros c. pose proof (strong_kill st i _ c Hc) as K1. pose proof (weak_kill st i _ c Hc) as K2.
             rewrite bool_decide_eq_false_2 in K1 by done. rewrite bool_decide_eq_false_2 in K2 by done. lia. }
           split_and!; try done; [| | |by left|rewrite insert_length; lia].
           - unfold rexec. by erewrite with_weak_some by done.
           - unfold rspec. by rewrite Hc.
           - split_and!; try done.
             + simpl. by apply Forall2_insert.
             + intros c. destruct (E c) as [-> ->]. apply Hs.
             + intros c. destruct (E c) as [-> ->]. apply Hw. }
      destruct (R_get_weak n0 st tab w i c HR Hc) as (p&x&Hp&Eb&Hlive&Hlw&Hx&Hbox).
      eapply (Hstep (Ret RDone) (set_handle i None st) (<[i := None]> tab)).
      + unfold rexec. erewrite with_weak_some by done. unfold kill_handle. unfold bind at 1. simpl.
        erewrite bind_Ret; cycle 1. { apply on_snd_Ret. simpl.
        erewrite bind_Ret by (eapply dec_weak_ok; [done|done|simpl; lia]). simpl.
        erewrite bind_Ret by (eapply rc_strong_count_ok; [done|by eapply box_at_setb]). simpl.
        rewrite (proj2 (N.eqb_neq (weak_of st c) 0)) by lia. reflexivity. } reflexivity.
      + unfold rspec. by rewrite Hc.
      + pose proof HR as (_&_&Ht&_).
        pose proof (strong_kill st i _ c Hc) as K1. pose proof (weak_kill st i _ c Hc) as K2.
        rewrite bool_decide_eq_false_2 in K1 by done. rewrite bool_decide_eq_true_2 in K2 by done.
        eapply (R_update n0 st _ tab); try done.
        * simpl. by apply Forall2_insert.
        * intros c' Hne. pose proof (strong_kill st i _ c' Hc) as E3.
          pose proof (weak_kill st i _ c' Hc) as E4.
          rewrite bool_decide_eq_false_2 in E3 by done.
          rewrite bool_decide_eq_false_2 in E4 by congruence. split_and!; [lia|lia|done].
        * intros _. exists x. split; [done|]. f_equal; lia.
        * intros _. lia.
      + done.
      + rewrite insert_length; lia.
    - (* weak counts *)
      destruct (spec_weak_or st i) as [[[c|] Hc]|Hc].
      3: { apply Hill; [apply with_weak_other; by eapply R_not_weak|]. unfold rspec. by rewrite match_not_weak. }
      2: { pose proof (R_get_null n0 st tab w i HR Hc) as Hp. eapply (Hpure (Ret (RNums 0 0))); [| |done].
           - unfold rexec. by erewrite with_weak_some by done.
           - unfold rspec. by rewrite Hc. }
      destruct (R_get_weak n0 st tab w i c HR Hc) as (p&x&Hp&Eb&Hlive&Hlw&Hx&Hbox).
      eapply (Hpure (Ret (RNums (strong_of st c) (weak_of st c)))); [| |done].
      + unfold rexec. erewrite with_weak_some by done. simpl.
        erewrite bind_Ret by (apply on_snd_Ret; by eapply rc_strong_count_ok).
        by erewrite bind_Ret by (apply on_snd_Ret; by eapply rc_weak_count_ok).
      + unfold rspec. by rewrite Hc.
    - (* weak ptr_eq *)
      destruct (spec_weak_or st i) as [[o Hc]|Hc].
      2: { apply Hill; [apply with_weak_other; by eapply R_not_weak|]. unfold rspec. by rewrite match_not_weak. }
      destruct (spec_weak_or st j) as [[o' Hc']|Hc'].
      + assert (Ho : forall i o, s_tab st !! i = Some (Some (SWeak o)) -> exists q,
          tab !! i = Some (Some (HWeak q)) /\ (sp_ptr <$> q) = ((fun c => Blk (n0 + N.of_nat c)) <$> o)).
        { intros k [c|] Hk.
          - destruct (R_get_weak n0 st tab w k c HR Hk) as (p&x&Hp&Eb&_). exists (Some p).
            split; [done|]. simpl. by rewrite Eb.
          - exists None. split; [by eapply R_get_null|done]. }
        destruct (Ho i o Hc) as (q&Hq&Eq). destruct (Ho j o' Hc') as (q'&Hq'&Eq').
        eapply (Hpure (Ret (RBool (bool_decide (o = o'))))); [| |done].
        * unfold rexec. erewrite with_weak_some by done. erewrite with_weak_some by done.
          unfold weak_ptr_eq, bind, on_snd, ret. simpl. rewrite Eq, Eq'. do 3 f_equal.
          destruct (bool_decide_reflect (o = o')) as [->|H]; [by apply bool_decide_eq_true_2|].
          apply bool_decide_eq_false_2. destruct o as [c|], o' as [c'|]; simpl; try done.
          intros [= ?]. apply H. f_equal. lia.
        * unfold rspec. by rewrite Hc, Hc'.
      + apply Hill.
        * destruct o as [c|].
          -- destruct (R_get_weak n0 st tab w i c HR Hc) as (p&x&Hp&_).
             unfold rexec. erewrite with_weak_some by done. apply with_weak_other. by eapply R_not_weak.
          -- pose proof (R_get_null n0 st tab w i HR Hc) as Hp.
             unfold rexec. erewrite with_weak_some by done. apply with_weak_other. by eapply R_not_weak.
        * unfold rspec. rewrite Hc. by rewrite match_not_weak.
  Qed.
End rc_refine.
