(** Every history of [SmallVec] calls follows the list specification up to the first unsound call. *)
From Verif Require Export SmallRun SpecSmallPanic.
From Coq Require Import ZifyBool ZifyNat ZifyN.

Section small_run2.
  Context {EN : Env} {T : Type} {EL : Elem T} (Cap : N).
  Notation W := (world T).
  Notation MS := (M (svec T * W)).
  Context (Hz : 0 < t_size) (HCap : fits Cap).
  Implicit Types (w : W) (s : svec T) (xs : list T).

  Notation unsnd := (unsound_small e_strict e_checks Cap (@min_non_zero_cap T EL)).

  Lemma sspec_defined b xs op ins o xs' ds ls :
    sspec refuses t_clone b xs op ins o xs' ds ls -> defined o.
  Proof. unfold defined. destruct 1; eauto. Qed.

  Lemma settle_defined_s {A} (o : res A) (ds : list T) :
    defined o -> settle drop_panics o ds <> Abort -> defined (settle drop_panics o ds).
  Proof.
    unfold settle, defined. intros [[a ->]|[p ->]] H;
      destruct (culprits drop_panics ds) as [|? []]; eauto; done.
  Qed.
  Lemma dsspec_defined b xs op ins o xs' ds ls :
    dsspec drop_panics refuses t_clone b xs op ins o xs' ds ls -> o <> Abort -> defined o.
  Proof.
    destruct 1 as [xs op ins o xs' ds ls Hs _|xs _ _|xs ls _ _ _]; intros Ha; [|unfold defined; eauto..].
    apply settle_defined_s; [by eapply sspec_defined|done].
  Qed.

  (** One call, whatever the destructors do. *)
  Definition sstepped D op w s xs : Prop :=
    exists o s' w', sexec Cap op (s, w) = (o, (s', w')) /\
      ((exists ins xs' ds ls, dsspec drop_panics refuses t_clone (is_stack s) xs op ins o xs' ds ls /\
          (o <> Abort -> srep Cap w' s' xs' /\ safter w s w' s' ds /\ hcap s' <= D + sdemand op + 8 /\
            llen xs' <= D + sdemand op)) \/
       (exists u, o = UB u /\ unsnd (is_stack s) xs op u)).

  Lemma up_to_prefix xs : exists ls, xs = up_to drop_panics 1 xs ++ ls.
  Proof.
    induction xs as [|x xs [ls IH]]; [by exists []|]. simpl. destruct (drop_panics x); [by exists xs|].
    exists ls. simpl. by f_equal.
  Qed.
  Lemma sstep_clear D w s xs :
    srep Cap w s xs -> hcap s <= D + 8 -> llen xs <= D -> sstepped D SClear w s xs.
  Proof.
    intros [Hw Hr] Hcap Hlen. unfold sstepped. cbn [sdemand]. destruct s as [[k|v] m]; simpl in Hr.
    - destruct (sk_clear_ok Hz Cap k xs w Hr) as (k'&He&Hr').
      rewrite drops_until_up_to in He. simpl in He.
      pose proof (redirect_stack (sk_clear Cap) vec_clear k m w _ _ _ He) as He'.
      destruct (culprits drop_panics xs) as [|c cs] eqn:Hcu.
      + rewrite up_to_1_all in He' by done.
        eexists _, _, _. simpl. split; [by erewrite bind_Ret by exact He'|]. left.
        exists [], [], xs, []. split.
        { rewrite <-(settle_quiet (Ret RUnit) xs Hcu) at 1. constructor; [constructor|done]. }
        intros _. split; [split; [by apply wok_drops|done]|]. split; [by apply skeeps_after, skeeps_stack|].
        unfold hcap. simpl. lia.
      + eexists _, _, _. simpl. split; [by erewrite bind_Panic by exact He'|]. left.
        destruct (up_to_prefix xs) as [ls Hls].
        exists [], [], (up_to drop_panics 1 xs), ls. split.
        { apply ds_clear_inline; [done|by rewrite Hcu|done]. }
        intros _. split; [split; [by apply wok_drops|done]|]. split; [by apply skeeps_after, skeeps_stack|].
        unfold hcap. simpl. lia.
    - pose proof (clear_ok Hz w v xs Hr) as He. rewrite drops_until_up_to in He. simpl in He.
      unfold hcap in Hcap. simpl in Hcap.
      destruct (culprits drop_panics xs) as [|c cs] eqn:Hcu.
      + rewrite up_to_1_all in He by done.
        apply (redirect_heap (sk_clear Cap) vec_clear v m w) in He as He'.
        eexists _, _, _. simpl. split; [by erewrite bind_Ret by exact He'|]. left.
        exists [], [], xs, []. split.
        { rewrite <-(settle_quiet (Ret RUnit) xs Hcu) at 1. constructor; [constructor|done]. }
        intros _. split; [apply srep_heap, rep_drops; apply (rep_take Hz w v xs 0 Hr); lia|].
        split; [apply skeeps_after, skeeps_heap; apply (keeps_drops v w xs)|].
        unfold hcap. simpl. unfold vcap in *. simpl. lia.
      + apply (redirect_heap (sk_clear Cap) vec_clear v m w) in He as He'.
        eexists _, _, _. simpl. split; [by erewrite bind_Panic by exact He'|]. left.
        exists [], xs, (up_to drop_panics 1 xs), []. split.
        { apply ds_clear_heap; [done|by rewrite Hcu]. }
        intros _. split; [by apply srep_heap, rep_drops|].
        split; [apply skeeps_after, skeeps_heap, keeps_drops|].
        unfold hcap. simpl. lia.
  Qed.

  Lemma sstep_gen D op w s xs :
    srep Cap w s xs -> hcap s <= D + 8 -> llen xs <= D ->
    fits (D + sdemand op + 8) -> sstepped D op w s xs.
  Proof.
    intros Hr Hcap Hlen Hfit.
    assert (op = SClear \/ op <> SClear) as [->|Hncl] by (destruct op; auto; by right).
    { by apply sstep_clear. }
    assert (Hfits : forall n, n <= D + sdemand op + 8 -> fits n).
    { intros n Hn. by eapply (fits_le Hz). }
    pose proof (srep_len Hz Cap HCap _ _ _ Hr) as (Hsl&Hslc&Hscb).
    assert (Hset : forall ins xs' ds ls o s' w', sexec Cap op (s, w) = (settle drop_panics o ds, (s', w')) ->
      sspec refuses t_clone (is_stack s) xs op ins o xs' ds ls ->
      (settle drop_panics o ds <> Abort -> srep Cap w' s' xs' /\ skeeps s w s' w' ds) ->
      hcap s' <= D + sdemand op + 8 -> llen xs' <= D + sdemand op -> sstepped D op w s xs).
    { intros ins xs' ds ls o s' w' H1 H2 H3 H5 H6. eexists _, s', w'. split; [exact H1|]. left.
      exists ins, xs', ds, ls. split; [by constructor|]. intros Ha. destruct (H3 Ha) as [H7 H8].
      apply skeeps_after in H8. done. }
    assert (Hok : forall ins xs' ls o s' w', sexec Cap op (s, w) = (o, (s', w')) ->
      sspec refuses t_clone (is_stack s) xs op ins o xs' [] ls -> srep Cap w' s' xs' ->
      skeeps s w s' w' [] -> hcap s' <= D + sdemand op + 8 -> llen xs' <= D + sdemand op ->
      sstepped D op w s xs).
    { intros ins xs' ls o s' w' H1 H2 H3 H4 H5 H6. eapply (Hset ins xs' [] ls o s' w'); try done. }
    assert (Hpan : forall ins xs' ds ls p s' w', sexec Cap op (s, w) = (settle drop_panics (Panic p) ds, (s', w')) ->
      sspec refuses t_clone (is_stack s) xs op ins (Panic p) xs' ds ls ->
      (culprits drop_panics ds = [] -> srep Cap w' s' xs' /\ skeeps s w s' w' ds) ->
      hcap s' <= D + sdemand op + 8 -> llen xs' <= D + sdemand op -> sstepped D op w s xs).
    { intros ins xs' ds ls p s' w' H1 H2 H3 H5 H6. eapply (Hset ins xs' ds ls (Panic p) s' w'); try done.
      intros Ha. apply H3. unfold settle in Ha. by destruct (culprits drop_panics ds) as [|? []]. }
    assert (Hbad : forall u st, sexec Cap op (s, w) = (UB u, st) -> unsnd (is_stack s) xs op u ->
      sstepped D op w s xs).
    { intros u [s' w'] H1 H2. exists (UB u), s', w'. split; [done|]. right. by exists u. }
    assert (Hsame : forall o, sexec Cap op (s, w) = (o, (s, w)) ->
      sspec refuses t_clone (is_stack s) xs op [] o xs [] [] -> sstepped D op w s xs).
    { intros o H1 H2. apply (Hok _ _ _ _ _ _ H1 H2); [done|by apply skeeps_refl|lia|lia]. }
    destruct op as [x| |i x|i|i|n| |l|l|it h|n|n|n|n|m| | | |i|i x|i| | |sc];
      cbn [sdemand] in *.
    - (* push *)
      destruct (push_sok Hz Cap HCap w s xs x Hr) as (r&s'&w'&He&Hc); [apply Hfits; lia|].
      destruct Hc as [(->&Hr'&Hk&Hc)|(->&Hr'&Hk&->&Hrf)].
      + eapply Hok; [simpl; by erewrite bind_Ret by exact He|constructor|done|done|lia|].
        rewrite app_length. simpl. lia.
      + rewrite settle_unwound in He.
        eapply Hpan; [simpl; by apply bind_settle_panic|by constructor|done|lia|lia].
    - (* pop *)
      assert (exists s' w', sv_pop Cap (s, w) = (Ret (last xs), (s', w')) /\
        srep Cap w' s' (take (length xs - 1) xs) /\ skeeps s w s' w' [] /\ hcap s' = hcap s)
        as (s'&w'&He&Hr'&Hk&Hh).
      { destruct Hr as [Hw Hr]. destruct s as [[k|v] m]; simpl in Hr.
        - destruct (sk_pop_ok Hz Cap k xs w Hr) as (k'&He&Hr').
          eexists _, _. split; [by apply redirect_stack|]. split; [by split|].
          split; [by apply skeeps_stack0|done].
        - destruct (pop_ok Hz w v xs Hr) as (v'&w'&He&Hr'&Hk&Hp).
          eexists _, _. split; [by apply redirect_heap|]. split; [by apply srep_heap|].
          split; [by apply skeeps_heap|]. unfold hcap. simpl. unfold vcap. by rewrite Hp. }
      destruct xs as [|y ys _] using rev_ind.
      + eapply Hok; [simpl; by erewrite bind_Ret by exact He|constructor|done|done|lia|simpl; lia].
      + rewrite last_snoc in He. rewrite app_length in Hr', Hlen. simpl in Hr', Hlen.
        replace (length ys + 1 - 1)%nat with (length ys) in Hr' by lia. rewrite take_app in Hr'.
        eapply Hok; [simpl; by erewrite bind_Ret by exact He|constructor|done|done|lia|lia].
    - (* insert *)
      assert (insert_undef Cap s (llen xs) i \/ ~ insert_undef Cap s (llen xs) i) as [Hu|Hu].
      { unfold insert_undef, roomy. destruct (is_stack s), (@e_strict e_profile), (@e_checks e_profile);
          lia. }
      + destruct (insert_undef_ub Hz Cap HCap w s xs i x Hr Hu) as [st He].
        eapply Hbad; [simpl; by erewrite bind_UB by exact He|].
        destruct Hu as (Hs&Hro&Hu). simpl. split; [done|]. split; [exact Hro|].
        destruct Hu as [(Hst&Hi)|(Hst&Hi)]; rewrite Hst; [left|right]; naive_solver.
      + destruct (insert_sok Hz Cap HCap w s xs i x Hr) as (r&s'&w'&He&Hc); [apply Hfits; lia|done|].
        destruct Hc as [(Hi&->&Hr'&Hk&Hc)|[(->&Hr'&Hk&->&Hrf)|(Hi&Hp&Hr'&Hk&Hc)]].
        * eapply Hok; [simpl; by erewrite bind_Ret by exact He| |done|done|lia|].
          -- pose proof (take_drop (N.to_nat i) xs) as Htd. rewrite <-Htd at 1. constructor.
             rewrite take_length. lia.
          -- rewrite app_length. simpl. rewrite take_length, drop_length. lia.
        * rewrite settle_unwound in He.
          eapply Hpan; [simpl; by apply bind_settle_panic|by constructor|done|lia|lia].
        * assert (exists p, r = settle drop_panics (Panic p) [x] /\ (p = PAssert \/ p = PDebugAssert)) as (p&->&Hp').
          { destruct Hp as [->| ->]; rewrite settle_unwound; eauto. }
          eapply Hpan; [simpl; by apply bind_settle_panic|by constructor|done|lia|lia].
    - (* remove *)
      destruct (N.le_gt_cases (llen xs) i) as [Hi|Hi].
      + assert (sv_remove Cap i (s, w) = (Panic PAssert, (s, w))) as He.
        { destruct Hr as [Hw Hr]. destruct s as [[k|v] m]; simpl in Hr.
          - apply redirect_stack. by eapply sk_remove_bad.
          - apply redirect_heap.
            destruct (remove_ok Hz w v xs i Hr) as [[_ He]|(x&v'&w'&Hi'&_)]; [done|lia]. }
        eapply Hsame; [simpl; by erewrite bind_Panic by exact He|by constructor].
      + destruct (xs !! N.to_nat i) as [x|] eqn:Hx. 2: { apply lookup_ge_None in Hx. lia. }
        assert ((is_stack s = true /\ llen xs = Cap /\ exists st, sv_remove Cap i (s, w) = (UB OutOfBounds, st)) \/
          exists s' w', sv_remove Cap i (s, w) = (Ret x, (s', w')) /\
          srep Cap w' s' (delete (N.to_nat i) xs) /\ skeeps s w s' w' [] /\ hcap s' = hcap s)
          as [(Hst&Hfull&st&He)|(s'&w'&He&Hr'&Hk&Hh)].
        { destruct Hr as [Hw Hr]. destruct s as [[k|v] m]; simpl in Hr.
          - destruct (N.eq_dec (llen xs) Cap) as [Hf|Hf].
            + left. split; [done|]. split; [done|]. eexists. apply redirect_stack. by eapply sk_remove_full.
            + right. destruct (sk_remove_ok Hz Cap k xs i x w Hr Hx) as (k'&He&Hr').
              { pose proof (skrep_len Hz _ _ _ Hr). lia. }
              eexists _, _. split; [by apply redirect_stack|]. split; [by split|].
              split; [by apply skeeps_stack0|done].
          - right. destruct (remove_ok Hz w v xs i Hr) as [[Hi' _]|(x'&v'&w'&_&Hx'&He&Hr'&Hk&Hp)]; [lia|].
            rewrite Hx in Hx'. injection Hx' as <-.
            eexists _, _. split; [by apply redirect_heap|]. split; [by apply srep_heap|].
            split; [by apply skeeps_heap|]. unfold hcap. simpl. unfold vcap. by rewrite Hp. }
        * eapply Hbad; [simpl; by erewrite bind_UB by exact He|]. simpl. done.
        * rewrite delete_take_drop in Hr'.
          eapply Hok; [simpl; by erewrite bind_Ret by exact He| |exact Hr'|done|lia|].
          -- rewrite (take_drop_middle_N _ _ _ Hx) at 1. constructor. rewrite take_length. lia.
          -- rewrite app_length, take_length, drop_length. lia.
    - (* swap_remove *)
      destruct (N.le_gt_cases (llen xs) i) as [Hi|Hi].
      + assert (sv_swap_remove Cap i (s, w) = (Panic PAssert, (s, w))) as He.
        { destruct Hr as [Hw Hr]. destruct s as [[k|v] m]; simpl in Hr.
          - apply redirect_stack. by eapply sk_swap_remove_bad.
          - apply redirect_heap.
            destruct (swap_remove_ok Hz w v xs i Hr) as [[_ He]|(x&l&v'&w'&Hi'&_)]; [lia|done|lia]. }
        eapply Hsame; [simpl; by erewrite bind_Panic by exact He|by constructor].
      + destruct (xs !! N.to_nat i) as [x|] eqn:Hx. 2: { apply lookup_ge_None in Hx. lia. }
        assert ((unsnd (is_stack s) xs (SSwapRemove i) Overlap /\
            exists st, sv_swap_remove Cap i (s, w) = (UB Overlap, st)) \/
          exists l s' w', last xs = Some l /\ sv_swap_remove Cap i (s, w) = (Ret x, (s', w')) /\
          srep Cap w' s' (take (length xs - 1) (<[N.to_nat i := l]> xs)) /\ skeeps s w s' w' [] /\
          hcap s' = hcap s)
          as [(Hun&st&He)|(l&s'&w'&Hl&He&Hr'&Hk&Hh)].
        { destruct (decide (e_strict = true /\ i + 1 = llen xs /\ (is_stack s = true \/ 2 <= llen xs)))
            as [(Hst&Hi1&Hb)|Hno].
          - left. split; [simpl; by rewrite Hst|].
            assert (i = llen xs - 1) as -> by lia.
            destruct Hr as [Hw Hr]. destruct s as [[k|v] m]; simpl in Hr.
            + eexists. apply redirect_stack. apply (sk_swap_remove_last Hz Cap k xs w Hr); [|done].
              intros ->. done.
            + destruct Hb as [Hb|Hb]; [done|].
              pose proof (swap_remove_last_strict Hz w v xs Hr Hb Hst) as E.
              destruct (vec_swap_remove (llen xs - 1) (v, w)) as [r [v' w']] eqn:Ev. simpl in E. subst r.
              eexists. by apply redirect_heap.
          - right. destruct Hr as [Hw Hr]. destruct s as [[k|v] m]; simpl in Hr.
            + destruct (sk_swap_remove_ok Hz Cap k xs i x w Hr Hx) as (l&k'&Hl&He&Hr').
              { destruct (@e_strict e_profile) eqn:Es; [right|by left]. intros E. apply Hno.
                split; [done|]. split; [done|]. by left. }
              eexists l, _, _. split; [done|]. split; [by apply redirect_stack|]. split; [by split|].
              split; [by apply skeeps_stack0|done].
            + destruct (swap_remove_ok Hz w v xs i Hr) as [[Hi' _]|(x'&l&v'&w'&_&Hx'&Hl&He&Hr'&Hk&Hp)].
              { destruct (@e_strict e_profile) eqn:Es; [right|by left].
                destruct (N.eq_dec (i + 1) (llen xs)) as [Hi1|Hi1]; [right|by left].
                apply dec_stable. intros H1. apply Hno. split; [done|]. split; [done|]. right. lia. }
              { lia. }
              rewrite Hx in Hx'. injection Hx' as <-.
              eexists l, _, _. split; [done|]. split; [by apply redirect_heap|]. split; [by apply srep_heap|].
              split; [by apply skeeps_heap|]. unfold hcap. simpl. unfold vcap. by rewrite Hp. }
        * eapply Hbad; [simpl; by erewrite bind_UB by exact He|done].
        * assert (exists ys, xs = ys ++ [l]) as [zs ->].
          { destruct xs as [|z zs _] using rev_ind; [done|]. rewrite last_snoc in Hl.
            injection Hl as ->. eauto. }
          rewrite app_length in *. simpl in *.
          replace (length zs + 1 - 1)%nat with (length zs) in Hr' by lia.
          destruct (decide (N.to_nat i = length zs)) as [Hil|Hil].
          -- rewrite lookup_app_r in Hx by lia. replace (N.to_nat i - length zs)%nat with 0%nat in Hx by lia.
             injection Hx as ->.
             rewrite insert_app_r_alt, take_app in Hr' by lia.
             eapply Hok; [simpl; by erewrite bind_Ret by exact He|apply ss_swap_remove_last; lia|exact Hr'|done|lia|lia].
          -- rewrite lookup_app_l in Hx by lia. rewrite insert_app_l in Hr' by lia.
             rewrite <-(insert_length zs (N.to_nat i) l), take_app in Hr'.
             pose proof (take_drop_middle_N _ _ _ Hx) as Ez.
             rewrite insert_take_drop in Hr' by lia.
             eapply Hok; [simpl; by erewrite bind_Ret by exact He| |exact Hr'|done|lia|].
             ++ rewrite Ez at 1. rewrite <-app_assoc. apply ss_swap_remove. rewrite take_length. lia.
             ++ rewrite app_length. simpl. rewrite take_length, drop_length. lia.
    - (* truncate *)
      pose (ds := if is_stack s then [] else drop (N.to_nat n) xs).
      assert (exists s' w', sv_truncate Cap n (s, w) = (settle drop_panics (Ret tt) ds, (s', w')) /\
        srep Cap w' s' (take (N.to_nat n) xs) /\ hcap s' = hcap s /\
        (settle drop_panics (Ret tt) ds <> Abort -> skeeps s w s' w' ds))
        as (s'&w'&He&Hr'&Hh&Hk).
      { subst ds. destruct Hr as [Hw Hr]. destruct s as [[k|v] m]; simpl in Hr; cbn [is_stack sv_store].
        - destruct (sk_truncate_ok Hz Cap k xs n w Hr) as (k'&He&Hr').
          eexists _, _. rewrite settle_nil. split; [by apply redirect_stack|]. split; [by split|].
          split; [done|]. intros _. by apply skeeps_stack0.
        - destruct (truncate_gen Hz w v xs n Hr) as (v'&w'&He&Hr'&Hp&Hk).
          eexists _, _. split; [by apply redirect_heap|]. split; [by apply srep_heap|].
          split; [unfold hcap; simpl; unfold vcap; by rewrite Hp|]. intros Ha. by apply skeeps_heap, Hk. }
      destruct (N.le_gt_cases (llen xs) n) as [Hn|Hn].
      + assert (ds = []) as E by (subst ds; rewrite drop_ge by lia; by destruct (is_stack s)).
        rewrite E, settle_nil in *. rewrite take_ge in Hr' by lia.
        eapply (Hok [] xs []); [simpl; by erewrite bind_Ret by exact He|by constructor|done|by apply Hk|lia|lia].
      + eapply (Hset [] (take (N.to_nat n) xs) ds (if is_stack s then drop (N.to_nat n) xs else []) (Ret RUnit));
          [simpl; by eapply bind_settle_ret| |intros Ha; split; [exact Hr'|apply Hk; by eapply settle_ret_abort]|lia|rewrite take_length; lia].
        rewrite <-(take_drop (N.to_nat n) xs) at 1. constructor. rewrite take_length. lia.
    - (* clear *) done.
    - (* append *)
      destruct (from_iter_gen Hz Cap HCap (Some <$> l) (llen l) w (proj1 Hr)) as (r&w1&ys&ds&He&Hc).
      { apply Hfits. rewrite fmap_length. lia. }
      assert (Hstill : forall w' ds, still w w' ds -> srep Cap w' s xs /\ skeeps s w s w' ds).
      { intros w' ds' (Hh&Hd&Hcu&Hn&Hw). split.
        - destruct Hr as [_ Hr]. split; [done|]. destruct s as [[k|v] m]; simpl in *; [done|].
          destruct Hr as [Hl [rest (_&Hsl'&Hb&Hdd)]]. split; [done|]. exists rest. unfold owns. rewrite Hh.
          split_and!; try done. destruct (vdata v); [done|]. destruct Hdd as (?&?&?). split_and!; try done. lia.
        - unfold skeeps, srest. by rewrite Hh. }
      rewrite fmap_length in Hc.
      destruct Hc as [(o&->&Hro&Hb&Hl&Hho)|[(->&(it'&Hit)&->&Hst)|[(->&->&->&Hrf&Hst)|(y&it'&Hit&->&->&Hrf&Hst)]]].
      + apply (inj (fmap Some)) in Hl. subst ys.
        destruct (sborn_other Hz Cap Cap _ _ _ _ _ _ _ Hr Hb Hro) as [Hr1 Hap].
        destruct (append_sok Hz Cap HCap w1 s xs o l Hr1 Hro Hap) as (r&s2&w2&He2&Hk2&Hap2&Hca&Hc2);
          [apply Hfits; lia|].
        assert (forall w3 ds, sgone o w2 w3 ds -> skeeps s w s2 w3 ds) as Hafter.
        { intros w3 ds' (Hg1&Hg2&Hg3&Hg4&_). destruct Hb as (Hb1&Hb2&Hb3&Hb4&_).
          destruct Hk2 as (Hk1&Hk2'&Hk3&Hk4). unfold skeeps. split_and!.
          - unfold srest in *. rewrite Hg1, delete_ptr_comm, Hk1, delete_ptr_comm, Hb1 by done. done.
          - rewrite Hg2, Hk2', Hb2, !app_nil_r. done.
          - congruence.
          - lia. }
        destruct Hc2 as [(->&Hr2&Hro2)|(->&->&Hr2&Hro2&Hrf)].
        * pose proof (with_len_srep Hz Cap w2 o l 0 Hro2) as Hro3.
          change (take (N.to_nat 0) l) with (@nil T) in Hro3.
          destruct (drop_val_quiet_s Hz Cap w2 _ [] (Hro3 ltac:(lia)) eq_refl) as (w3&He3&Hg).
          assert (sgone o w2 w3 []) as Hg'.
          { unfold sgone, srest in *. destruct o as [[k|v] m]; exact Hg. }
          eapply (Hok l (xs ++ l) []).
          -- simpl. erewrite bind_Ret by (apply on_snd_Ret; exact He).
             erewrite bind_Ret by (apply on_unwind_Ret; exact He2).
             erewrite bind_Ret by (apply on_snd_Ret; exact He3). reflexivity.
          -- constructor.
          -- by eapply sgone_other.
          -- by apply Hafter.
          -- lia.
          -- rewrite app_length. lia.
        * destruct (drop_val_exact_s Hz Cap w2 o l Hro2) as (w3&He3&_).
          eapply (Hpan l xs l []).
          -- simpl. erewrite bind_Ret by (apply on_snd_Ret; exact He).
             apply bind_settle_panic.
             eapply on_unwind_settle; [exact He2|]. apply on_snd_Ret. exact He3.
          -- rewrite <-(app_nil_r l) at 1. by constructor.
          -- intros Hcu. destruct (drop_val_quiet_s Hz Cap w2 o l Hro2 Hcu) as (w4&He4&Hg).
             rewrite He3 in He4. injection He4 as _ <-.
             split; [by eapply sgone_other|by apply Hafter].
          -- lia.
          -- lia.
      + assert (None ∈ Some <$> l) as Hin by (rewrite Hit; set_solver).
        apply elem_of_list_fmap in Hin as (?&?&_). done.
      + destruct (Hstill _ _ Hst) as [Hr' Hk].
        eapply (Hok [] xs []); [simpl; by erewrite bind_Panic by (apply on_snd_Ret; exact He)| |done|done|lia|lia].
        by apply (ss_append_refused _ _ _ xs [] l []).
      + assert (exists l2, l = (ys ++ [y]) ++ l2) as [l2 ->].
        { pose proof (f_equal (take (length ys + 1)) Hit) as E.
          rewrite <-(fmap_length Some ys) in E at 2. rewrite take_add_app in E by done. simpl in E.
          rewrite take_0 in E. rewrite <-fmap_take in E.
          change ((Some <$> ys) ++ [Some y]) with ((Some <$> ys) ++ (Some <$> [y])) in E.
          rewrite <-fmap_app in E. apply (inj (fmap Some)) in E.
          exists (drop (length ys + 1) l). rewrite <-E. by rewrite take_drop. }
        eapply (Hpan (ys ++ [y]) xs (y :: ys) []);
          [simpl; apply bind_settle_panic, on_snd_Ret; exact He| |intros Hcu; by apply Hstill, Hst|lia|lia].
        constructor; [done|]. solve_Permutation.
    - (* extend_from_slice *)
      destruct (extend_slice_sok Hz Cap HCap l w s xs Hr) as (r&s'&w'&ys&ds&He&Hr'&Hk&Hca&Hc);
        [apply Hfits; lia|].
      destruct Hc as [(->&Hm&->)|[(->&(l1&x&l2&->&Hm&Hx)&->)|[(->&->&->&Hrf)|(l1&x&l2&y&->&Hm&Hx&->&->&Hrf)]]].
      + apply mapM_Forall2 in Hm. pose proof (Forall2_length _ _ _ Hm).
        eapply Hok; [simpl; by erewrite bind_Ret by exact He|by constructor|done|done|lia|rewrite app_length; lia].
      + apply mapM_Forall2 in Hm. pose proof (Forall2_length _ _ _ Hm). rewrite app_length in *. simpl in *.
        eapply Hok; [simpl; by erewrite bind_Panic by exact He|by constructor|done|done|lia|rewrite app_length; lia].
      + rewrite app_nil_r in Hr'.
        eapply Hok; [simpl; by erewrite bind_Panic by exact He|by constructor|done|done|lia|lia].
      + apply mapM_Forall2 in Hm. pose proof (Forall2_length _ _ _ Hm). rewrite app_length in *. simpl in *.
        rewrite settle_unwound in He.
        eapply Hpan; [simpl; by apply bind_settle_panic|by constructor|done|lia|rewrite app_length; lia].
    - (* extend *)
      destruct (extend_sok Hz Cap HCap it h w s xs Hr) as (r&s'&w'&ys&ds&He&Hr'&Hk&Hca&Hc);
        [apply Hfits; lia|].
      destruct Hc as [(->&->&->)|[(->&(it'&->)&->)|[(->&->&->&Hrf)|(y&it'&->&->&->&Hrf)]]].
      + rewrite fmap_length in *.
        eapply Hok; [simpl; by erewrite bind_Ret by exact He|by constructor|done|done|lia|rewrite app_length; lia].
      + rewrite app_length, fmap_length in *. simpl in *.
        eapply Hok; [simpl; by erewrite bind_Panic by exact He|by constructor|done|done|lia|rewrite app_length; lia].
      + rewrite app_nil_r in Hr'.
        eapply Hok; [simpl; by erewrite bind_Panic by exact He|by constructor|done|done|lia|lia].
      + rewrite app_length, fmap_length in *. simpl in *. rewrite settle_unwound in He.
        eapply Hpan; [simpl; by apply bind_settle_panic|by constructor|done|lia|rewrite app_length; lia].
    - (* reserve *)
      destruct (reserve_sok Hz Cap HCap w s xs n Hr) as (r&s'&w'&He&Hk&Hr'&Hh&_&Hc); [apply Hfits; lia|].
      destruct Hc as [(->&_)|(->&->&Hrf)].
      + eapply Hok; [simpl; by erewrite bind_Ret by exact He|by constructor|done|done|lia|lia].
      + eapply Hok; [simpl; by erewrite bind_Panic by exact He|by constructor|done|done|lia|lia].
    - (* reserve_exact *)
      destruct (reserve_exact_sok Hz Cap HCap w s xs n Hr) as (r&s'&w'&He&Hk&Hr'&Hh&_&Hc); [apply Hfits; lia|].
      destruct Hc as [(->&_)|(->&->&Hrf)].
      + eapply Hok; [simpl; by erewrite bind_Ret by exact He|by constructor|done|done|lia|lia].
      + eapply Hok; [simpl; by erewrite bind_Panic by exact He|by constructor|done|done|lia|lia].
    - (* try_reserve *)
      destruct (try_reserve_sok Hz Cap HCap w s xs n Hr) as (r&s'&w'&He&Hk&Hr'&Hh&_&Hc); [apply Hfits; lia|].
      destruct Hc as [(->&_)|(->&->&Hrf)];
        eapply Hok; [simpl; by erewrite bind_Ret by exact He|by constructor|done|done|lia|lia|
                     simpl; by erewrite bind_Ret by exact He|by constructor|done|done|lia|lia].
    - (* try_reserve_exact *)
      destruct (try_reserve_exact_sok Hz Cap HCap w s xs n Hr) as (r&s'&w'&He&Hk&Hr'&Hh&_&Hc); [apply Hfits; lia|].
      destruct Hc as [(->&_)|(->&->&Hrf)];
        eapply Hok; [simpl; by erewrite bind_Ret by exact He|by constructor|done|done|lia|lia|
                     simpl; by erewrite bind_Ret by exact He|by constructor|done|done|lia|lia].
    - (* shrink_to *)
      pose proof Hr as [Hw Hr0]. destruct s as [[k|v] mk]; simpl in Hr0.
      { eapply Hsame; [reflexivity|constructor]. }
      destruct (decide (0 < N.max (llen xs) m \/ vcap v = 0)) as [Hok'|Hno].
      + destruct (shrink_to_ok Hz w v xs m Hr0 Hok') as (r&v'&w'&He&Hr'&Hk&Hc).
        unfold hcap in Hcap; simpl in Hcap.
        assert (sv_shrink_to m (SVec (Heap v) mk, w) = (r, (SVec (Heap v') mk, w'))) as He'
          by (by apply redirect_heap).
        destruct Hc as [(->&Hc)|(->&->&Hrf)].
        * eapply Hok; [simpl; by erewrite bind_Ret by exact He'|by constructor|by apply srep_heap|by apply skeeps_heap|unfold hcap; simpl; lia|lia].
        * eapply Hok; [simpl; by erewrite bind_Panic by exact He'|by constructor|by apply srep_heap|by apply skeeps_heap|unfold hcap; simpl; lia|lia].
      + destruct xs as [|x xs]; [|simpl in Hno; lia]. assert (m = 0) as -> by (simpl in Hno; lia).
        pose proof (shrink_to_zero Hz w v Hr0) as E. specialize (E ltac:(lia)).
        destruct (vec_shrink_to 0 (v, w)) as [r [v' w']] eqn:Ev. simpl in E. subst r.
        eapply (Hbad ZeroSizeAlloc); [|simpl; done].
        simpl. erewrite bind_UB; [reflexivity|]. by apply redirect_heap.
    - (* shrink_to_fit *)
      pose proof Hr as [Hw Hr0]. destruct s as [[k|v] mk]; simpl in Hr0.
      { eapply Hsame; [reflexivity|constructor]. }
      pose proof (shrink_to_fit_eq _ _ _ Hr0) as Efit.
      destruct (decide (0 < N.max (llen xs) 0 \/ vcap v = 0)) as [Hok'|Hno].
      + destruct (shrink_to_ok Hz w v xs 0 Hr0 Hok') as (r&v'&w'&He&Hr'&Hk&Hc).
        unfold hcap in Hcap; simpl in Hcap.
        assert (sv_shrink_to_fit (SVec (Heap v) mk, w) = (r, (SVec (Heap v') mk, w'))) as He'
          by (apply redirect_heap; by rewrite Efit).
        destruct Hc as [(->&Hc)|(->&->&Hrf)].
        * eapply Hok; [simpl; by erewrite bind_Ret by exact He'|by constructor|by apply srep_heap|by apply skeeps_heap|unfold hcap; simpl; lia|lia].
        * eapply Hok; [simpl; by erewrite bind_Panic by exact He'|by constructor|by apply srep_heap|by apply skeeps_heap|unfold hcap; simpl; lia|lia].
      + destruct xs as [|x xs]; [|simpl in Hno; lia].
        pose proof (shrink_to_zero Hz w v Hr0) as E. specialize (E ltac:(lia)).
        destruct (vec_shrink_to 0 (v, w)) as [r [v' w']] eqn:Ev. simpl in E. subst r.
        eapply (Hbad ZeroSizeAlloc); [|simpl; done].
        simpl. erewrite bind_UB; [reflexivity|]. apply redirect_heap. by rewrite Efit.
    - (* move_to_heap *)
      pose proof Hr as [Hw Hr0]. destruct s as [[k|v] mk]; simpl in Hr0.
      + destruct (move_ok Hz Cap w k mk xs 0 Hr) as (r&s'&w'&He&Hk&Hr'&Hc); [apply Hfits; lia|].
        assert (sv_move_to_heap (SVec (Stack k) mk, w) = unwrap r (s', w')) as He'
          by (unfold sv_move_to_heap; by erewrite bind_Ret by exact He).
        pose proof (min_cap_le Hz).
        destruct Hc as [(->&v&Hv&Hvc)|(->&->&Hrf)].
        * eapply Hok; [simpl; by erewrite bind_Ret by exact He'|by constructor|done|done| |lia].
          unfold hcap. rewrite Hv, Hvc. lia.
        * eapply Hok; [simpl; by erewrite bind_Panic by exact He'|by constructor|done|done|lia|lia].
      + unfold hcap in Hcap; simpl in Hcap.
        destruct (reserve_exact_ok Hz w v xs 0 Hr0) as (r&v'&w'&He&Hk&Hr'&Hc); [apply Hfits; lia|].
        pose proof (rep_cap Hz _ _ _ Hr0) as [Hlc _].
        destruct Hc as [(->&_&_&Hs&_)|(_&_&?&_)]; [|lia].
        destruct Hs as [-> ->]; [lia|].
        eapply Hsame; [|constructor]. simpl. unfold sv_move_to_heap, sv_try_move_to_heap_and_reserve_exact.
        rewrite !bind_assoc, bind_get_fst. cbn [sv_store]. rewrite !bind_assoc.
        erewrite bind_Ret by (apply on_heap_eq; exact He). reflexivity.
    - (* try_move_to_stack *)
      pose proof Hr as [Hw Hr0]. destruct s as [[k|v] mk]; simpl in Hr0.
      { eapply Hsame; [reflexivity|constructor; by right]. }
      destruct (N.le_gt_cases (llen xs) Cap) as [Hle|Hgt].
      + destruct (move_to_stack_ub Cap Hz w v mk xs Hr0 Hle) as (u&st&He&Hu).
        eapply Hbad; [simpl; by erewrite bind_UB by exact He|]. simpl. done.
      + eapply Hsame; [|constructor; left; reflexivity]. simpl. unfold sv_try_move_to_stack.
        rewrite bind_assoc, bind_get_fst. cbn [sv_store]. rewrite (proj1 Hr0).
        rewrite (proj2 (N.leb_gt _ _)) by done. reflexivity.
    - (* index *)
      pose proof (index_sok Cap Hz HCap w s xs i Hr) as He. destruct (xs !! N.to_nat i) as [x|] eqn:Ex.
      + eapply Hsame; [simpl; by erewrite bind_Ret by exact He|by constructor].
      + apply lookup_ge_None in Ex. eapply Hsame; [simpl; by erewrite bind_Panic by exact He|constructor; lia].
    - (* assign *)
      destruct (assign_sok Cap Hz HCap w s xs i x Hr) as (r&s'&w'&He&Hh&[(y&Hy&->&Hr'&Hk)|(Hy&->&Hr'&->&Hk)]).
      + rewrite settle_drop_res in He. pose proof (lookup_lt_Some _ _ _ Hy).
        rewrite insert_take_drop in Hr' by done.
        eapply (Hset [x] _ [y] [] (Ret RUnit)); [simpl; by eapply bind_settle_ret| |intros _; split; [exact Hr'|done]|lia|].
        2: { rewrite app_length. simpl. rewrite take_length, drop_length. lia. }
        rewrite (take_drop_middle_N _ _ _ Hy) at 1. constructor. rewrite take_length. lia.
      + apply lookup_ge_None in Hy. rewrite settle_unwound in He.
        eapply Hpan; [simpl; by apply bind_settle_panic|constructor; lia|done|lia|lia].
    - (* get *)
      pose proof (get_sok Cap Hz HCap w s xs i Hr) as He.
      eapply Hsame; [simpl; by erewrite bind_Ret by exact He|constructor].
    - (* as_slice *)
      pose proof (as_slice_sok Cap Hz w s xs Hr) as He.
      eapply Hsame; [simpl; by erewrite bind_Ret by exact He|constructor].
    - (* len *)
      eapply Hsame; [simpl; rewrite bind_get_fst, Hsl; reflexivity|constructor].
    - (* set_scope *)
      eexists _, s, _. split; [reflexivity|]. left. exists [], xs, [], [].
      split; [rewrite <-(settle_nil (Ret RUnit)) at 1; constructor; [constructor|done]|].
      intros _. split; [|split; [|split; [simpl; lia|simpl; lia]]].
      + destruct Hr as [Hw Hr]. assert (wok (set_cur (Some sc) w)) as Hw'.
        { destruct Hw as [_ Hw]. split; [done|exact Hw]. }
        split; [exact Hw'|]. destruct s as [[k|v] mk]; simpl in *; [done|].
        destruct Hr as [? [rest (_&Ho)]]. split; [done|]. exists rest. split; [done|exact Ho].
      + split; [done|by rewrite app_nil_r].
  Qed.

  (** If destructors do not panic. *)
  Lemma dsspec_quiet b xs op ins o xs' ds ls : no_drop_panic ->
    dsspec drop_panics refuses t_clone b xs op ins o xs' ds ls ->
    sspec refuses t_clone b xs op ins o xs' ds ls.
  Proof.
    intros Hnd. destruct 1 as [xs op ins o xs' ds ls Hs _|xs _ Hc|xs ls _ Hc _];
      [|by rewrite culprits_quiet in Hc..].
    rewrite settle_quiet by (by apply culprits_quiet). done.
  Qed.
  Lemma dstrace_quiet xs ops ins outs xs' ds ls : no_drop_panic ->
    dstrace drop_panics refuses t_clone xs ops ins outs xs' ds ls ->
    strace refuses t_clone xs ops ins outs xs' ds ls.
  Proof.
    intros Hnd. induction 1; [constructor|]. econstructor; [|done]. by apply dsspec_quiet.
  Qed.

  (** Every history follows the list specification, up to the first unsound call or the abort of
      the process if there is one. *)
  Lemma srun_gen ops : forall D w s xs,
    srep Cap w s xs -> hcap s <= D + 8 -> llen xs <= D ->
    fits (D + total_sdemand ops + 8) ->
    exists outs s' w', srun Cap ops (s, w) = (outs, (s', w')) /\
      ((exists ins xs' ds ls, dstrace drop_panics refuses t_clone xs ops ins outs xs' ds ls /\ srep Cap w' s' xs' /\
          safter w s w' s' ds /\ Forall (fun o => defined o.2) outs) \/
       (exists pre op post ins outs' xs' ds ls b o, ops = pre ++ op :: post /\
          outs = outs' ++ [(b, o)] /\
          dstrace drop_panics refuses t_clone xs pre ins outs' xs' ds ls /\
          ((exists u, o = UB u /\ unsnd b xs' op u) \/
           (o = Abort /\ exists i xs2 d2 l2, dsspec drop_panics refuses t_clone b xs' op i Abort xs2 d2 l2)))).
  Proof.
    induction ops as [|op ops IH]; intros D w s xs Hr Hcap Hlen Hfit.
    { exists [], s, w. split; [done|]. left. exists [], xs, [], []. split; [constructor|]. split; [done|].
      split; [by apply safter_refl|done]. }
    simpl in Hfit.
    destruct (sstep_gen D op w s xs Hr Hcap Hlen) as (o&s1&w1&He&Hcase).
    { eapply (fits_le Hz); [|exact Hfit]. lia. }
    assert ((exists u, o = UB u /\ unsnd (is_stack s) xs op u) \/
      (o = Abort /\ exists i xs2 d2 l2, dsspec drop_panics refuses t_clone (is_stack s) xs op i Abort xs2 d2 l2) \/
      (defined o /\ exists i1 xs1 d1 l1, dsspec drop_panics refuses t_clone (is_stack s) xs op i1 o xs1 d1 l1 /\
        srep Cap w1 s1 xs1 /\ safter w s w1 s1 d1 /\ hcap s1 <= D + sdemand op + 8 /\
            llen xs1 <= D + sdemand op)) as [Hu|[Ha|(Ho&i1&xs1&d1&l1&Hs&Hr1&Ha1&Hc1&Hl1)]].
    { destruct Hcase as [(i1&xs1&d1&l1&Hs&Hcase)|Hu]; [|by left]. right.
      assert (o = Abort \/ o <> Abort) as [->|Hna] by (destruct o; auto; by right).
      - left. split; [done|]. by exists i1, xs1, d1, l1.
      - right. split; [by eapply dsspec_defined|]. exists i1, xs1, d1, l1. split; [done|]. by apply Hcase. }
    - exists [(is_stack s, o)], s1, w1. split; [simpl; rewrite He; by destruct Hu as (u&->&_)|]. right.
      exists [], op, ops, [], [], xs, [], [], (is_stack s), o. split; [done|]. split; [done|].
      split; [constructor|by left].
    - exists [(is_stack s, o)], s1, w1. split; [simpl; rewrite He; by destruct Ha as (->&_)|]. right.
      exists [], op, ops, [], [], xs, [], [], (is_stack s), o. split; [done|]. split; [done|].
      split; [constructor|by right].
    - destruct (IH (D + sdemand op) w1 s1 xs1 Hr1) as (outs&s2&w2&He2&Hcase2); [lia|lia| |].
      { eapply (fits_le Hz); [|exact Hfit]. lia. }
      assert (o <> Abort) as Hna by (destruct Ho as [[? ->]|[? ->]]; done).
      exists ((is_stack s, o) :: outs), s2, w2. split.
      { simpl. rewrite He, He2. by destruct Ho as [[? ->]|[? ->]]. }
      destruct Hcase2 as [(ins&xs2&d2&l2&Ht&Hr2&Ha2&Hd)|(pre&op'&post&ins&outs'&xs2&d2&l2&b&o'&->&->&Ht&Hu)].
      + left. exists (i1 ++ ins), xs2, (d1 ++ d2), (l1 ++ l2). split; [by econstructor|]. split; [done|].
        split; [|by constructor].
        destruct Ha1 as [Ha Hb], Ha2 as [Hc Hd']. split; [congruence|]. rewrite Hd', Hb. by rewrite app_assoc.
      + right. exists (op :: pre), op', post, (i1 ++ ins), ((is_stack s, o) :: outs'), xs2, (d1 ++ d2), (l1 ++ l2), b, o'.
        split; [done|]. split; [done|]. split; [by econstructor|done].
  Qed.
  Lemma srun_any ops D w s xs :
    srep Cap w s xs -> hcap s <= D + 8 -> llen xs <= D ->
    fits (D + total_sdemand ops + 8) -> no_drop_panic ->
    exists outs s' w', srun Cap ops (s, w) = (outs, (s', w')) /\
      ((exists ins xs' ds ls, strace refuses t_clone xs ops ins outs xs' ds ls /\ srep Cap w' s' xs' /\
          safter w s w' s' ds /\ Forall (fun o => defined o.2) outs) \/
       (exists pre op post ins outs' xs' ds ls b u, ops = pre ++ op :: post /\
          outs = outs' ++ [(b, UB u)] /\
          strace refuses t_clone xs pre ins outs' xs' ds ls /\ unsnd b xs' op u)).
  Proof.
    intros Hr Hcap Hlen Hfit Hnd. destruct (srun_gen ops D w s xs Hr Hcap Hlen Hfit) as (outs&s'&w'&He&Hcase).
    exists outs, s', w'. split; [done|].
    destruct Hcase as [(ins&xs'&ds&ls&Ht&H)|(pre&op&post&ins&outs'&xs'&ds&ls&b&o&->&->&Ht&[(u&->&Hu)|(->&Ha)])].
    - left. exists ins, xs', ds, ls. apply dstrace_quiet in Ht; done.
    - right. exists pre, op, post, ins, outs', xs', ds, ls, b, u. apply dstrace_quiet in Ht; done.
    - destruct Ha as (i&xs2&d2&l2&Ha). apply dsspec_quiet in Ha; [|done].
      apply sspec_defined in Ha. by destruct Ha as [[? ?]|[? ?]].
  Qed.
End small_run2.
