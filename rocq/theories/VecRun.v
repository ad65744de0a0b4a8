(** Running a history of calls on the vector model, and its refinement of the list specification. *)
From Verif Require Export VecProofs5 SpecVec.
From Coq Require Import ZifyBool ZifyNat ZifyN.

Section vec_run.
  Context {EN : Env} {T : Type} {EL : Elem T}.
  Notation W := (world T).
  Notation MV := (M (vec * W)).

  Definition set_scope (s : N) : MV unit := fun st => (Ret tt, (fst st, set_cur (Some s) (snd st))).

  (** One call.  [OAppend l] is
      [let mut o = Vec::from(l); v.append(&mut o); drop(o)], where a panic of [append] (it can only
      panic before touching [o]) drops [o]. *)
  Definition vexec (op : vop T) : MV (vret T) :=
    match op with
    | OPush x => vec_push x ;; ret RUnit
    | OPop => o <- vec_pop; ret (ROpt o)
    | OInsert i x => vec_insert i x ;; ret RUnit
    | ORemove i => x <- vec_remove i; ret (RVal x)
    | OSwapRemove i => x <- vec_swap_remove i; ret (RVal x)
    | OTruncate n => vec_truncate n ;; ret RUnit
    | OClear => vec_clear ;; ret RUnit
    | OAppend l =>
        o <- on_snd (vec_from_array l);
        o' <- on_unwind (vec_append o) (on_snd (vec_drop_val o));
        on_snd (vec_drop_val o') ;; ret RUnit
    | OExtendSlice l => vec_extend_from_slice l ;; ret RUnit
    | OExtendIter it h => vec_extend_from_iter it h ;; ret RUnit
    | OResize n x => resize_val n x ;; ret RUnit
    | OResizeWith n g => resize_fn n g ;; ret RUnit
    | OReserve n => vec_reserve n ;; ret RUnit
    | OReserveExact n => vec_reserve_exact n ;; ret RUnit
    | OTryReserve n => r <- vec_try_reserve n; ret (RResult r)
    | OTryReserveExact n => r <- vec_try_reserve_exact n; ret (RResult r)
    | OShrinkTo m => vec_shrink_to m ;; ret RUnit
    | OShrinkToFit => vec_shrink_to_fit ;; ret RUnit
    | OIndex i => x <- vec_index i; ret (RRef x)
    | OAssign i x => vec_assign i x ;; ret RUnit
    | OGet i => o <- vec_get i; ret (ROptRef o)
    | OAsSlice => v <- get_fst; l <- on_snd (vec_as_slice v); ret (RList l)
    | OLen => v <- get_fst; ret (RNum (v_len v))
    | OSetScope s => set_scope s ;; ret RUnit
    end.

  (** A history: after a caught panic the next call is made; undefined behaviour and aborts end it. *)
  Fixpoint vrun (ops : list (vop T)) (st : vec * W) : list (res (vret T)) * (vec * W) :=
    match ops with
    | [] => ([], st)
    | op :: ops =>
        match vexec op st with
        | (Ret a, st') => let '(outs, st'') := vrun ops st' in (Ret a :: outs, st'')
        | (Panic p, st') => let '(outs, st'') := vrun ops st' in (Panic p :: outs, st'')
        | (r, st') => ([r], st')
        end
    end.

  Lemma produce_spec (g : nat -> option T) n : forall k ys b,
    produce g k n = (ys, b) ->
    (length ys <= n)%nat /\
    (forall j, (j < length ys)%nat -> g (k + j)%nat = ys !! j) /\
    (if b then length ys = n else (length ys < n)%nat /\ g (k + length ys)%nat = None).
  Proof.
    induction n as [|n IH]; simpl; intros k ys b.
    - intros [= <- <-]. simpl. split_and!; [lia| |done]. intros j ?. lia.
    - destruct (g k) as [x|] eqn:Eg.
      + destruct (produce g (S k) n) as [l b'] eqn:Ep. intros [= <- <-].
        destruct (IH _ _ _ Ep) as (H1&H2&H3). simpl. split_and!; [lia| |].
        * intros [|j] Hj; simpl; [by rewrite Nat.add_0_r|].
          rewrite <-H2 by lia. f_equal. lia.
        * destruct b'; [lia|]. destruct H3 as [? H3]. split; [lia|]. rewrite <-H3. f_equal. lia.
      + intros [= <- <-]. simpl. rewrite Nat.add_0_r. split_and!; [lia| |lia|done].
        intros j ?. lia.
  Qed.

  Context (Hz : 0 < t_size).
  Implicit Types (w : W) (v : vec) (s : list (option T)) (xs : list T).

  Lemma born_other w v xs o w1 ds ys :
    rep w v xs -> born w o w1 ds -> rep w1 o ys -> rep w1 v xs /\ apart v o.
  Proof.
    intros [Hl [rest Ho]] (Hv&_&Hc&Hn&Hw1) [_ [rest' Ho']].
    destruct Ho as (Hw&Hs&Hb&Hd). unfold vrest in Hv. unfold apart.
    destruct (vdata v) as [|b] eqn:Ev.
    - split; [|done]. split; [done|]. exists rest. unfold owns. rewrite Ev. split_and!; done.
    - destruct Hd as (H1&H2&H3).
      assert (heap w1 !! b = heap w !! b /\ match vdata o with Dangling => True | Blk c => b <> c end)
        as [Hb1 Hne].
      { destruct (vdata o) as [|c]; simpl in Hv; [by rewrite Hv|].
        assert (b <> c) as Hne.
        { intros ->. rewrite <-Hv, lookup_delete in H3. done. }
        split; [|done]. rewrite <-Hv. by rewrite lookup_delete_ne. }
      split; [|by destruct (vdata o)].
      split; [done|]. exists rest. unfold owns. rewrite Ev. split_and!; try done.
      + lia. + congruence.
  Qed.

  Lemma gone_other w v xs o w1 ds :
    rep w v xs -> apart v o -> gone o w w1 ds -> rep w1 v xs.
  Proof.
    intros [Hl [rest Ho]] Ha (Hv&_&Hc&Hn&Hw1).
    destruct Ho as (Hw&Hs&Hb&Hd). unfold vrest in Hv. unfold apart in Ha.
    split; [done|]. exists rest. unfold owns.
    destruct (vdata v) as [|b] eqn:Ev; [split_and!; done|].
    destruct Hd as (H1&H2&H3). split_and!; try done; [lia|].
    rewrite Hv. destruct (vdata o) as [|c]; simpl; [done|]. by rewrite lookup_delete_ne.
  Qed.

  Lemma delete_ptr_comm p q (h : gmap N (block T)) :
    delete_ptr p (delete_ptr q h) = delete_ptr q (delete_ptr p h).
  Proof. destruct p, q; simpl; try done. apply delete_commute. Qed.

  Lemma mapM_Forall2 (l ys : list T) :
    mapM t_clone l = Some ys -> Forall2 (fun x y => t_clone x = Some y) l ys.
  Proof. intros H. by apply mapM_Some in H. Qed.

  Lemma unwound_ok {A} p (x : T) : no_drop_panic -> (unwound p x : res A) = Panic p.
  Proof. intros H. unfold unwound. by rewrite (H x), andb_false_r. Qed.

  Definition after w v w' v' ds : Prop := vrest v' w' = vrest v w /\ drops w' = drops w ++ ds.
  Lemma keeps_after v w v' w' ds : keeps v w v' w' ds -> after w v w' v' ds.
  Proof. intros (?&?&_). done. Qed.

  Lemma min_cap_le : min_non_zero_cap <= 8.
  Proof. unfold min_non_zero_cap. repeat case_match; lia. Qed.

  Notation bound D := (N.max (2 * D) 8).

  (** What one call does, whatever the destructors do. *)
  Definition stepped D op w v xs : Prop :=
    (exists o ins v' w' xs' ds,
      vexec op (v, w) = (settle drop_panics o ds, (v', w')) /\
      vspec refuses t_clone xs op ins o xs' ds /\ (op = OClear -> culprits drop_panics xs = []) /\
      (settle drop_panics o ds <> Abort -> rep w' v' xs' /\ after w v w' v' ds /\
       vcap v' <= bound (D + demand op) /\ llen xs' <= D + demand op)) \/
    (op = OClear /\ culprits drop_panics xs <> [] /\ exists w',
      vexec op (v, w) = (Panic PDrop, (v, w')) /\ rep w' v xs /\
      after w v w' v (up_to drop_panics 1 xs)).

  Lemma stepped_calm D op w v xs :
    op <> OClear ->
    (exists o ins v' w' xs', vexec op (v, w) = (o, (v', w')) /\
      vspec refuses t_clone xs op ins o xs' [] /\ rep w' v' xs' /\ after w v w' v' [] /\
      vcap v' <= bound (D + demand op) /\ llen xs' <= D + demand op) ->
    stepped D op w v xs.
  Proof.
    intros Hop (o&ins&v'&w'&xs'&He&Hs&Hr&Ha&Hc&Hl). left. exists o, ins, v', w', xs', [].
    rewrite settle_nil. split_and!; done.
  Qed.
  Lemma stepped_unwind D op w v xs :
    op <> OClear ->
    (exists p ins v' w' xs' ds, vexec op (v, w) = (settle drop_panics (Panic p) ds, (v', w')) /\
      vspec refuses t_clone xs op ins (Panic p) xs' ds /\
      (settle drop_panics (Panic p) ds <> (Abort : res unit) -> rep w' v' xs' /\ after w v w' v' ds) /\
      vcap v' <= bound (D + demand op) /\ llen xs' <= D + demand op) ->
    stepped D op w v xs.
  Proof.
    intros Hop (p&ins&v'&w'&xs'&ds&He&Hs&Hr&Hc&Hl). left. exists (Panic p), ins, v', w', xs', ds.
    split_and!; try done. intros Hna. destruct Hr; [|done].
    intros Hab. apply Hna. unfold settle in *. by destruct (culprits drop_panics ds) as [|? []].
  Qed.

  Ltac len := rewrite ?app_length, ?fmap_length in *; simpl in *; lia.

  Lemma step_gen D op w v xs :
    rep w v xs -> vcap v <= bound D -> llen xs <= D ->
    sound_call e_strict xs op -> fits (bound (D + demand op)) ->
    stepped D op w v xs.
  Proof.
    intros Hr Hcap Hlen Hside Hfit.
    destruct (rep_cap Hz _ _ _ Hr) as [Hc0 _].
    assert (Hfits : forall n, n <= D + demand op -> fits n).
    { intros n Hn. eapply (fits_le Hz); [|exact Hfit]. lia. }
    destruct op as [x| |i x|i|i|n| |l|l|it h|n x|n g|n|n|n|n|m| |i|i x|i| | |sc]; simpl in Hfit, Hfits, Hside |- *.
    - (* push *)
      destruct (push_ok Hz w v xs x Hr) as (r&v'&w'&He&Hc); [apply Hfits; lia|].
      destruct Hc as [(->&Hr'&Hk&Hc)|(->&Hr'&Hk&->&Hc&Hrf)].
      + apply stepped_calm; [done|]; simpl. eexists _, _, v', w', _. erewrite bind_Ret by exact He.
        split_and!; [done|constructor|done|by apply keeps_after|lia|rewrite app_length; simpl; lia].
      + rewrite settle_unwound in He. apply stepped_unwind; [done|]; simpl. eexists _, _, v, w', _, _.
        erewrite bind_settle_panic by exact He.
        split_and!; [done|by constructor|intros _; split; [done|by apply keeps_after]|lia|lia].
    - (* pop *)
      destruct (pop_ok Hz w v xs Hr) as (v'&w'&He&Hr'&Hk&Hp).
      destruct xs as [|y ys _] using rev_ind.
      + apply stepped_calm; [done|]; simpl. eexists _, _, v', w', _. erewrite bind_Ret by exact He.
        split_and!; [done|constructor|done|by apply keeps_after|unfold vcap; rewrite Hp; fold (vcap v); lia|simpl; lia].
      + rewrite last_snoc in He. rewrite app_length in Hr', Hlen. simpl in Hr', Hlen.
        replace (length ys + 1 - 1)%nat with (length ys) in Hr' by lia. rewrite take_app in Hr'.
        apply stepped_calm; [done|]; simpl. eexists _, _, v', w', _. erewrite bind_Ret by exact He.
        split_and!; [done|constructor|done|by apply keeps_after|unfold vcap; rewrite Hp; fold (vcap v); lia|simpl; lia].
    - (* insert *)
      destruct (insert_ok Hz w v xs i x Hr) as (r&v'&w'&He&Hc); [apply Hfits; lia|].
      destruct Hc as [(Hi&->&Hr'&Hk&Hc)|[(Hi&->&Hr'&Hk&->&Hc&Hrf)|(Hi&->&Hr'&Hk&->)]].
      + apply stepped_calm; [done|]; simpl. eexists _, _, v', w', _. erewrite bind_Ret by exact He. split_and!.
        * done.
        * pose proof (take_drop (N.to_nat i) xs) as Htd. rewrite <-Htd at 1. constructor.
          rewrite take_length. lia.
        * done.
        * by apply keeps_after.
        * lia.
        * rewrite app_length. simpl. rewrite take_length, drop_length. lia.
      + rewrite settle_unwound in He. apply stepped_unwind; [done|]; simpl. eexists _, _, v, w', _, _.
        erewrite bind_settle_panic by exact He.
        split_and!; [done|by constructor|intros _; split; [done|by apply keeps_after]|lia|lia].
      + rewrite settle_unwound in He. apply stepped_unwind; [done|]; simpl. eexists _, _, v, w', _, _.
        erewrite bind_settle_panic by exact He.
        split_and!; [done|by constructor|intros _; split; [done|by apply keeps_after]|lia|lia].
    - (* remove *)
      destruct (remove_ok Hz w v xs i Hr) as [[Hi He]|(x&v'&w'&Hi&Hx&He&Hr'&Hk&Hp)].
      + apply stepped_calm; [done|]; simpl. eexists _, _, v, w, _. erewrite bind_Panic by exact He.
        split_and!; [done|by constructor|done|apply keeps_after, keeps_refl|lia|lia].
      + rewrite delete_take_drop in Hr'.
        apply stepped_calm; [done|]; simpl. eexists _, _, v', w', _. erewrite bind_Ret by exact He. split_and!.
        * done.
        * rewrite (take_drop_middle_N _ _ _ Hx) at 1. constructor.
          rewrite take_length. lia.
        * done.
        * by apply keeps_after.
        * unfold vcap; rewrite Hp; fold (vcap v); lia.
        * rewrite app_length, take_length, drop_length. lia.
    - (* swap_remove *)
      destruct (swap_remove_ok Hz w v xs i Hr Hside) as [[Hi He]|(x&l&v'&w'&Hi&Hx&Hl&He&Hr'&Hk&Hp)].
      + apply stepped_calm; [done|]; simpl. eexists _, _, v, w, _. erewrite bind_Panic by exact He.
        split_and!; [done|by constructor|done|apply keeps_after, keeps_refl|lia|lia].
      + assert (exists ys, xs = ys ++ [l]) as [zs ->].
        { destruct xs as [|z zs _] using rev_ind; [done|]. rewrite last_snoc in Hl.
          injection Hl as ->. eauto. }
        rewrite app_length in *. simpl in *.
        replace (length zs + 1 - 1)%nat with (length zs) in Hr' by lia.
        destruct (decide (N.to_nat i = length zs)) as [Hil|Hil].
        * rewrite lookup_app_r in Hx by lia. replace (N.to_nat i - length zs)%nat with 0%nat in Hx by lia.
          injection Hx as ->.
          rewrite insert_app_r_alt, take_app in Hr' by lia.
          apply stepped_calm; [done|]; simpl. eexists _, _, v', w', _. erewrite bind_Ret by exact He.
          split_and!; [done|apply s_swap_remove_last; lia|exact Hr'|by apply keeps_after| |lia].
          unfold vcap; rewrite Hp; fold (vcap v); lia.
        * rewrite lookup_app_l in Hx by lia. rewrite insert_app_l in Hr' by lia.
          rewrite <-(insert_length zs (N.to_nat i) l), take_app in Hr'.
          pose proof (take_drop_middle_N _ _ _ Hx) as Ez.
          rewrite insert_take_drop in Hr' by lia.
          apply stepped_calm; [done|]; simpl. eexists _, _, v', w', _. erewrite bind_Ret by exact He.
          split_and!; [done| |exact Hr'|by apply keeps_after| |].
          -- rewrite Ez at 1. rewrite <-app_assoc.
             apply s_swap_remove. rewrite take_length. lia.
          -- unfold vcap; rewrite Hp; fold (vcap v); lia.
          -- rewrite app_length. simpl. rewrite take_length, drop_length. lia.
    - (* truncate *)
      destruct (truncate_gen Hz w v xs n Hr) as (v'&w'&He&Hr'&Hp&Hk).
      left. exists (Ret RUnit), [], v', w', (take (N.to_nat n) xs), (drop (N.to_nat n) xs). simpl.
      erewrite bind_settle_ret by exact He.
      split_and!; [done| |done|].
      + destruct (N.le_gt_cases (llen xs) n).
        * rewrite take_ge, drop_ge by lia. by constructor.
        * rewrite <-(take_drop (N.to_nat n) xs) at 1. constructor. rewrite take_length. lia.
      + intros Hab. split_and!; [done| |unfold vcap; rewrite Hp; fold (vcap v); lia|rewrite take_length; lia].
        apply keeps_after, Hk. by eapply settle_ret_abort.
    - (* clear *)
      pose proof (clear_ok Hz w v xs Hr) as He. rewrite drops_until_up_to in He. simpl in He.
      destruct (culprits drop_panics xs) as [|c cs] eqn:Hcu.
      + left. rewrite up_to_1_all in He by done.
        eexists (Ret RUnit), _, _, _, _, _. simpl. erewrite bind_Ret by exact He.
        split_and!; [by rewrite settle_quiet|constructor|done|]. intros _.
        split_and!; [| |unfold vcap; simpl; fold (vcap v); lia|simpl; lia].
        * pose proof (rep_take Hz w v xs 0 Hr) as [? [rest Ho]]; [lia|]. split; [done|].
          exists rest. by apply owns_drops.
        * apply keeps_after. apply (keeps_drops v w xs).
      + right. split_and!; [done|by rewrite Hcu|]. eexists. simpl. erewrite bind_Panic by exact He.
        split_and!; [done| |].
        * destruct Hr as [? [rest Ho]]. split; [done|]. exists rest. by apply owns_drops.
        * apply keeps_after, keeps_drops.
    - (* append *)
      destruct (from_array_gen Hz w l (rep_wok _ _ _ Hr)) as (r&w1&He&Hc); [apply Hfits; lia|].
      destruct Hc as [(o&->&Hro&Hb&Hco)|(->&Hst&Hrf)].
      2: { apply stepped_unwind; [done|]; simpl.
           eexists PUnwrap, _, v, w1, _, _. erewrite bind_settle_panic.
           2: { apply on_snd_Ret. exact He. }
           split_and!; [done|by constructor| |lia|lia].
           intros Hab. apply (settle_panic_abort (B := vec)) in Hab. specialize (Hst Hab).
           destruct Hst as (Hh&Hd&Hcu&Hn&Hw). split; [|split; [unfold vrest; by rewrite Hh|done]].
           destruct Hr as [? [rest Ho]]. split; [done|]. exists rest.
           destruct Ho as (?&?&?&Hdd). unfold owns. rewrite Hh. split_and!; try done.
           destruct (vdata v); [done|]. destruct Hdd as (?&?&?). split_and!; try done. lia. }
      destruct (born_other _ _ _ _ _ _ _ Hr Hb Hro) as [Hr1 Hap].
      destruct (append_ok Hz w1 v xs o l Hr1 Hro Hap) as (r&v2&w2&He2&Hk2&Hap2&Hca&Hcb&Hc2);
        [apply Hfits; lia|].
      assert (forall ds, gone o w2 w2 ds -> True) as _ by done.
      assert (forall w3 ds, gone o w2 w3 ds -> after w v w3 v2 ds) as Hafter.
      { intros w3 ds (Hg1&Hg2&_). destruct Hb as (Hb1&Hb2&_). destruct Hk2 as (Hk1&Hk2'&_).
        split.
        - unfold vrest in *. rewrite Hg1, delete_ptr_comm, Hk1, delete_ptr_comm, Hb1. done.
        - rewrite Hg2, Hk2', Hb2, !app_nil_r. done. }
      destruct Hc2 as [(->&Hr2&Hro2)|(->&->&Hr2&Hro2&Hrf)].
      + assert (rep w2 (Vec (v_ptr o) 0) []) as Hro3 by (apply (rep_take Hz _ _ _ 0 Hro2); lia).
        destruct (vec_drop_val_quiet Hz _ _ _ Hro3 eq_refl) as (w3&He3&Hg).
        apply stepped_calm; [done|]; simpl. eexists _, _, v2, w3, _. split_and!.
        * erewrite bind_Ret by (apply on_snd_Ret; exact He).
          erewrite bind_Ret by (apply on_unwind_Ret; exact He2).
          erewrite bind_Ret by (apply on_snd_Ret; exact He3). reflexivity.
        * constructor.
        * eapply (gone_other w2 v2 _ (Vec (v_ptr o) 0)); [done|exact Hap2|done].
        * apply Hafter. exact Hg.
        * lia.
        * rewrite app_length. lia.
      + destruct (drop_exact Hz _ _ _ Hro2) as (w3&He3&_).
        apply stepped_unwind; [done|]; simpl. eexists PUnwrap, _, v, w3, _, l. split_and!.
        * erewrite bind_Ret by (apply on_snd_Ret; exact He).
          apply bind_settle_panic.
          eapply on_unwind_settle; [exact He2|]. apply on_snd_Ret. exact He3.
        * by constructor.
        * intros Hab. rewrite settle_panic in Hab.
          destruct (culprits drop_panics l) eqn:Hcu; [|done].
          destruct (vec_drop_val_quiet Hz _ _ _ Hro2 Hcu) as (w4&He4&Hg).
          rewrite He3 in He4. injection He4 as <-.
          split; [by eapply gone_other|by apply Hafter].
        * lia.
        * lia.
    - (* extend_from_slice *)
      destruct (extend_from_slice_ok Hz l w v xs Hr) as (r&v'&w'&ys&He&Hr'&Hk&Hca&Hcb&Hc);
        [apply Hfits; lia|].
      destruct Hc as [(->&Hm)|[(->&l1&x&l2&->&Hm&Hx)|(->&->&->&Hrf)]].
      + apply mapM_Forall2 in Hm. pose proof (Forall2_length _ _ _ Hm).
        apply stepped_calm; [done|]; simpl. eexists _, _, v', w', _. erewrite bind_Ret by exact He.
        split_and!; [done|by constructor|done|by apply keeps_after|len|len].
      + apply mapM_Forall2 in Hm. pose proof (Forall2_length _ _ _ Hm).
        rewrite app_length in *. simpl in *.
        apply stepped_calm; [done|]; simpl. eexists _, _, v', w', _. erewrite bind_Panic by exact He.
        split_and!; [done|eapply s_extend_slice_panic; done|done|by apply keeps_after|len|len].
      + rewrite app_nil_r in Hr'. apply stepped_calm; [done|]; simpl. eexists _, _, v, w', _. erewrite bind_Panic by exact He.
        split_and!; [done|by constructor|done|by apply keeps_after|len|len].
    - (* extend_from_iter *)
      destruct (extend_from_iter_ok Hz it h w v xs Hr) as (r&v'&w'&ys&ds&He&Hr'&Hk&Hca&Hcb&Hc);
        [apply Hfits; lia|].
      destruct Hc as [(->&->&->)|[(->&(it'&->)&->)|[(->&->&->&Hrf)|(y&it'&->&->&->&Hrf&_)]]].
      + rewrite fmap_length in *. apply stepped_calm; [done|]; simpl. eexists _, _, v', w', _. erewrite bind_Ret by exact He.
        split_and!; [done|by constructor|done|by apply keeps_after|len|len].
      + rewrite app_length, fmap_length in *. simpl in *.
        apply stepped_calm; [done|]; simpl. eexists _, _, v', w', _. erewrite bind_Panic by exact He.
        split_and!; [done|by constructor|done|by apply keeps_after|len|len].
      + rewrite app_nil_r in Hr'. apply stepped_calm; [done|]; simpl. eexists _, _, v', w', _. erewrite bind_Panic by exact He.
        split_and!; [done|by constructor|done|by apply keeps_after|len|len].
      + rewrite app_length, fmap_length in *. simpl in *. rewrite settle_unwound in He.
        apply stepped_unwind; [done|]; simpl. eexists _, _, v', w', _, _.
        erewrite bind_settle_panic by exact He.
        split_and!; [done|by constructor|intros _; split; [done|by apply keeps_after]|len|len].
    - (* resize *)
      destruct (resize_val_gen Hz w v xs n x Hr) as (r&v'&w'&He&Hca&Hc); [apply Hfits; lia|].
      destruct Hc as [(Hn&->&Hrk)|[(Hn&->&ys&Hys&Hr'&Hk)|[(Hn&->&Hx&Hr'&Hk)|(Hn&->&Hr'&Hk&->&Hrf)]]].
      + left. eexists (Ret RUnit), _, v', w', (take (N.to_nat n) xs), _. simpl. erewrite bind_settle_ret by exact He.
        split_and!; [reflexivity| |done|].
        { rewrite <-(take_drop (N.to_nat n) xs) at 1. constructor. rewrite take_length. lia. }
        intros Hab. destruct Hrk as [Hr' Hk]; [by eapply settle_ret_abort|].
        split_and!; [done|by apply keeps_after|lia|rewrite take_length; lia].
      + assert (llen ys = n - llen xs - 1 /\ forall y, y ∈ ys -> t_clone x = Some y) as [Hly Hcl].
        { destruct Hys as [[-> ->]|(y&Hy&->)].
          - split; [simpl; lia|]. intros y Hy. by apply elem_of_nil in Hy.
          - split; [rewrite replicate_length; lia|]. intros z Hzz.
            apply elem_of_replicate in Hzz as [-> _]. done. }
        apply stepped_calm; [done|]; simpl. eexists _, _, v', w', _. erewrite bind_Ret by exact He.
        split_and!; [done| |done|by apply keeps_after|lia|rewrite !app_length; simpl; lia].
        constructor; [lia|done].
      + apply stepped_unwind; [done|]; simpl. eexists _, _, v', w', _, _.
        erewrite bind_settle_panic by exact He.
        split_and!; [done|by constructor|intros _; split; [done|by apply keeps_after]|lia|lia].
      + apply stepped_unwind; [done|]; simpl. eexists _, _, v, w', _, _.
        erewrite bind_settle_panic by exact He.
        split_and!; [done|by constructor|intros _; split; [done|by apply keeps_after]|lia|lia].
    - (* resize_with *)
      destruct (resize_fn_gen Hz w v xs n g Hr) as (r&v'&w'&He&Hca&Hc); [apply Hfits; lia|].
      destruct Hc as [(Hn&->&Hrk)|[(Hn&->&Hr'&Hk)|(Hn&->&Hr'&Hk&->&Hrf)]].
      + left. eexists (Ret RUnit), _, v', w', (take (N.to_nat n) xs), _. simpl. erewrite bind_settle_ret by exact He.
        split_and!; [reflexivity| |done|].
        { rewrite <-(take_drop (N.to_nat n) xs) at 1. constructor. rewrite take_length. lia. }
        intros Hab. destruct Hrk as [Hr' Hk]; [by eapply settle_ret_abort|].
        split_and!; [done|by apply keeps_after|lia|rewrite take_length; lia].
      + destruct (produce g 0 (N.to_nat (n - llen xs))) as [ys b] eqn:Ep.
        destruct (produce_spec _ _ _ _ _ Ep) as (H1&H2&H3). simpl in *.
        destruct b.
        * apply stepped_calm; [done|]; simpl. eexists _, _, v', w', _. erewrite bind_Ret by exact He.
          split_and!; [done| |done|by apply keeps_after|lia|rewrite !app_length; lia].
          constructor; [lia|done].
        * destruct H3 as [H3 H4]. apply stepped_calm; [done|]; simpl. eexists _, _, v', w', _. erewrite bind_Panic by exact He.
          split_and!; [done| |done|by apply keeps_after|lia|rewrite !app_length; lia].
          constructor; [lia|done|done].
      + apply stepped_calm; [done|]; simpl. eexists _, _, v, w', _. erewrite bind_Panic by exact He.
        split_and!; [done|by constructor|done|by apply keeps_after|lia|lia].
    - (* reserve *)
      pose proof min_cap_le as Hmin.
      destruct (reserve_ok Hz w v xs n Hr) as (r&v'&w'&He&Hk&Hr'&Hc).
      { intros Hlt. eapply (fits_le Hz); [|exact Hfit]. unfold amortized. lia. }
      destruct Hc as [(->&?&?&Hc1&Hc2)|(->&->&?&?)].
      + apply stepped_calm; [done|]; simpl. eexists _, _, v', w', _. erewrite bind_Ret by exact He.
        split_and!; [done|by constructor|done|by apply keeps_after| |lia].
        destruct (N.le_gt_cases (llen xs + n) (vcap v)) as [Hle|Hgt];
          [destruct (Hc1 Hle) as [-> _]|rewrite (Hc2 Hgt); unfold amortized]; lia.
      + apply stepped_calm; [done|]; simpl. eexists _, _, v, w', _. erewrite bind_Panic by exact He.
        split_and!; [done|constructor; unfold refuses; by eauto|done|by apply keeps_after|lia|lia].
    - (* reserve_exact *)
      destruct (reserve_exact_ok Hz w v xs n Hr) as (r&v'&w'&He&Hk&Hr'&Hc); [apply Hfits; lia|].
      destruct Hc as [(->&?&?&Hc1&Hc2)|(->&->&?&?)].
      + apply stepped_calm; [done|]; simpl. eexists _, _, v', w', _. erewrite bind_Ret by exact He.
        split_and!; [done|by constructor|done|by apply keeps_after| |lia].
        destruct (N.le_gt_cases (llen xs + n) (vcap v)) as [Hle|Hgt];
          [destruct (Hc1 Hle) as [-> _]|rewrite (Hc2 Hgt)]; lia.
      + apply stepped_calm; [done|]; simpl. eexists _, _, v, w', _. erewrite bind_Panic by exact He.
        split_and!; [done|constructor; unfold refuses; by eauto|done|by apply keeps_after|lia|lia].
    - (* try_reserve *)
      pose proof min_cap_le as Hmin.
      destruct (try_reserve_ok Hz w v xs n Hr) as (r&v'&w'&He&Hk&Hr'&Hc).
      { intros Hlt. eapply (fits_le Hz); [|exact Hfit]. unfold amortized. lia. }
      destruct Hc as [(->&?&?&Hc1&Hc2)|(->&->&?&?)].
      + apply stepped_calm; [done|]; simpl. eexists _, _, v', w', _. erewrite bind_Ret by exact He.
        split_and!; [done|by constructor|done|by apply keeps_after| |lia].
        destruct (N.le_gt_cases (llen xs + n) (vcap v)) as [Hle|Hgt];
          [destruct (Hc1 Hle) as [-> _]|rewrite (Hc2 Hgt); unfold amortized]; lia.
      + apply stepped_calm; [done|]; simpl. eexists _, _, v, w', _. erewrite bind_Ret by exact He.
        split_and!; [done|constructor; unfold refuses; by eauto|done|by apply keeps_after|lia|lia].
    - (* try_reserve_exact *)
      destruct (try_reserve_exact_ok Hz w v xs n Hr) as (r&v'&w'&He&Hk&Hr'&Hc); [apply Hfits; lia|].
      destruct Hc as [(->&?&?&Hc1&Hc2)|(->&->&?&?)].
      + apply stepped_calm; [done|]; simpl. eexists _, _, v', w', _. erewrite bind_Ret by exact He.
        split_and!; [done|by constructor|done|by apply keeps_after| |lia].
        destruct (N.le_gt_cases (llen xs + n) (vcap v)) as [Hle|Hgt];
          [destruct (Hc1 Hle) as [-> _]|rewrite (Hc2 Hgt)]; lia.
      + apply stepped_calm; [done|]; simpl. eexists _, _, v, w', _. erewrite bind_Ret by exact He.
        split_and!; [done|constructor; unfold refuses; by eauto|done|by apply keeps_after|lia|lia].
    - (* shrink_to *)
      destruct (shrink_to_ok Hz w v xs m Hr) as (r&v'&w'&He&Hr'&Hk&Hc); [left; lia|].
      destruct Hc as [(->&Hc)|(->&->&Hrf)].
      + apply stepped_calm; [done|]; simpl. eexists _, _, v', w', _. erewrite bind_Ret by exact He.
        split_and!; [done|by constructor|done|by apply keeps_after|lia|lia].
      + apply stepped_calm; [done|]; simpl. eexists _, _, v, w', _. erewrite bind_Panic by exact He.
        split_and!; [done|by constructor|done|by apply keeps_after|lia|lia].
    - (* shrink_to_fit *)
      destruct (shrink_to_ok Hz w v xs 0 Hr) as (r&v'&w'&He&Hr'&Hk&Hc); [left; lia|].
      rewrite <-(shrink_to_fit_eq _ _ _ Hr) in He.
      destruct Hc as [(->&Hc)|(->&->&Hrf)].
      + apply stepped_calm; [done|]; simpl. eexists _, _, v', w', _. erewrite bind_Ret by exact He.
        split_and!; [done|by constructor|done|by apply keeps_after|lia|lia].
      + apply stepped_calm; [done|]; simpl. eexists _, _, v, w', _. erewrite bind_Panic by exact He.
        split_and!; [done|by constructor|done|by apply keeps_after|lia|lia].
    - (* index *)
      pose proof (index_ok Hz w v xs i Hr) as He. destruct (xs !! N.to_nat i) as [x|] eqn:Ex.
      + apply stepped_calm; [done|]; simpl. eexists _, _, v, w, _. erewrite bind_Ret by exact He.
        split_and!; [done|by constructor|done|apply keeps_after, keeps_refl|lia|lia].
      + apply lookup_ge_None in Ex. apply stepped_calm; [done|]; simpl. eexists _, _, v, w, _. erewrite bind_Panic by exact He.
        split_and!; [done|constructor; lia|done|apply keeps_after, keeps_refl|lia|lia].
    - (* assign *)
      destruct (assign_ok Hz w v xs i x Hr) as (r&w'&He&[(y&Hy&->&Hr'&Hk)|(Hy&->&Hr'&Hk)]).
      + rewrite settle_drop_res in He. pose proof (lookup_lt_Some _ _ _ Hy).
        rewrite insert_take_drop in Hr' by done.
        left. eexists (Ret RUnit), _, v, w', _, _. simpl. erewrite bind_settle_ret by exact He.
        split_and!; [reflexivity| |done|].
        { rewrite (take_drop_middle_N _ _ _ Hy) at 1. constructor. rewrite take_length. lia. }
        intros _. split_and!; [exact Hr'|by apply keeps_after|lia|].
        rewrite app_length. simpl. rewrite take_length, drop_length. lia.
      + apply lookup_ge_None in Hy. rewrite settle_unwound in He.
        apply stepped_unwind; [done|]; simpl. eexists _, _, v, w', _, _.
        erewrite bind_settle_panic by exact He.
        split_and!; [done|constructor; lia|intros _; split; [done|by apply keeps_after]|lia|lia].
    - (* get *)
      pose proof (get_ok Hz w v xs i Hr) as He. apply stepped_calm; [done|]; simpl. eexists _, _, v, w, _. erewrite bind_Ret by exact He.
      split_and!; [done|by constructor|done|apply keeps_after, keeps_refl|lia|lia].
    - (* as_slice *)
      pose proof (as_slice_ok Hz w v xs Hr) as He. apply stepped_calm; [done|]; simpl. eexists _, _, v, w, _.
      rewrite bind_get_fst. erewrite bind_Ret by (apply on_snd_Ret; exact He).
      split_and!; [done|by constructor|done|apply keeps_after, keeps_refl|lia|lia].
    - (* len *)
      pose proof Hr as [Hl _]. apply stepped_calm; [done|]; simpl. eexists _, _, v, w, _. rewrite bind_get_fst, Hl.
      split_and!; [done|by constructor|done|apply keeps_after, keeps_refl|lia|lia].
    - (* set_scope *)
      apply stepped_calm; [done|]; simpl. eexists _, _, v, _, _. split_and!; [reflexivity|by constructor| | |lia|lia].
      + destruct Hr as [? [rest (Hw&Ho)]]. split; [done|]. exists rest. split; [|exact Ho].
        destruct Hw as [_ Hw]. split; [done|exact Hw].
      + split; [done|by rewrite app_nil_r].
  Qed.

  Lemma step_ok D op w v xs :
    rep w v xs -> vcap v <= bound D -> llen xs <= D ->
    sound_call e_strict xs op -> fits (bound (D + demand op)) -> no_drop_panic ->
    exists o ins v' w' xs' ds, vexec op (v, w) = (o, (v', w')) /\
      vspec refuses t_clone xs op ins o xs' ds /\ rep w' v' xs' /\ after w v w' v' ds /\
      vcap v' <= bound (D + demand op) /\ llen xs' <= D + demand op.
  Proof.
    intros Hr Hcap Hlen Hside Hfit Hnd.
    destruct (step_gen D op w v xs Hr Hcap Hlen Hside Hfit)
      as [(o&ins&v'&w'&xs'&ds&He&Hs&_&Hrest)|(->&Hc&_)].
    - rewrite settle_quiet in * by (by apply culprits_quiet).
      exists o, ins, v', w', xs', ds. destruct Hrest as (?&?&?&?); [by destruct Hs|]. split_and!; done.
    - by rewrite culprits_quiet in Hc.
  Qed.

  (** The calls of a history never meet the two unsound cases. *)
  Definition sound_history (xs : list T) (ops : list (vop T)) : Prop :=
    forall pre op post ins outs xs' ds, ops = pre ++ op :: post ->
      vtrace refuses t_clone xs pre ins outs xs' ds -> sound_call e_strict xs' op.

  Lemma sound_history_cons xs op ops ins o xs1 ds :
    sound_history xs (op :: ops) -> vspec refuses t_clone xs op ins o xs1 ds ->
    sound_history xs1 ops.
  Proof.
    intros H Hs pre op' post i outs xs' d -> Ht. eapply (H (op :: pre)); [done|].
    by econstructor.
  Qed.

  Lemma run_ok ops : forall D w v xs,
    rep w v xs -> vcap v <= bound D -> llen xs <= D ->
    sound_history xs ops -> fits (bound (D + total_demand ops)) -> no_drop_panic ->
    exists outs ins v' w' xs' ds, vrun ops (v, w) = (outs, (v', w')) /\
      vtrace refuses t_clone xs ops ins outs xs' ds /\ rep w' v' xs' /\ after w v w' v' ds.
  Proof.
    induction ops as [|op ops IH]; intros D w v xs Hr Hcap Hlen Hside Hfit Hnd.
    - exists [], [], v, w, xs, []. split_and!; [done|constructor|done|].
      split; [done|by rewrite app_nil_r].
    - simpl in Hfit.
      destruct (step_ok D op w v xs) as (o&i1&v1&w1&xs1&d1&He&Hs&Hr1&Ha1&Hc1&Hl1); try done.
      { eapply (Hside [] op ops); [done|constructor]. }
      { eapply (fits_le Hz); [|exact Hfit]. lia. }
      destruct (IH (D + demand op) w1 v1 xs1) as (outs&i2&v2&w2&xs2&d2&He2&Ht&Hr2&Ha2); try done.
      { by eapply sound_history_cons. }
      { by rewrite <-N.add_assoc. }
      exists (o :: outs), (i1 ++ i2), v2, w2, xs2, (d1 ++ d2). split_and!; try done.
      + simpl. rewrite He, He2. assert ((exists a, o = Ret a) \/ exists p, o = Panic p) as [[? ->]|[? ->]].
        { destruct Hs; eauto. }
        all: done.
      + by econstructor.
      + destruct Ha1 as [Ha Hb], Ha2 as [Hc Hd]. split; [congruence|].
        rewrite Hd, Hb. by rewrite app_assoc.
  Qed.

  (** A whole life: create the vector, make the calls, drop it. *)
  Lemma life_ok ops w :
    wok w -> sound_history [] ops -> fits (bound (total_demand ops)) -> no_drop_panic ->
    exists v0 w0 outs v w1 w2 ins xs ds,
      vec_new w = (Ret v0, w0) /\ vrun ops (v0, w0) = (outs, (v, w1)) /\
      vec_drop_val v w1 = (Ret tt, w2) /\
      vtrace refuses t_clone [] ops ins outs xs ds /\
      vec_as_slice v w1 = (Ret xs, w1) /\ v_len v = llen xs /\
      delete_ptr (vdata v) (heap w1) = heap w /\ drops w1 = drops w ++ ds /\
      heap w2 = heap w /\ drops w2 = drops w ++ ds ++ xs.
  Proof.
    intros Hw Hside Hfit Hnd.
    destruct (new_born Hz w Hw) as (v&w1&He&Hr&Hb&_&Hc).
    destruct (run_ok ops 0 w1 v [] Hr) as (outs&ins&v2&w2&xs&ds&He2&Ht&Hr2&Ha2&Hd2);
      [lia|simpl; lia|done|by rewrite N.add_0_l|done|].
    destruct (vec_drop_val_gone Hz _ _ _ Hr2 Hnd) as (w3&He3&Hg1&Hg2&_).
    destruct Hb as (Hb1&Hb2&_). unfold vrest in *.
    exists v, w1, outs, v2, w2, w3, ins, xs, ds. split_and!; try done.
    - by apply (as_slice_ok Hz).
    - by destruct Hr2.
    - congruence.
    - rewrite Hd2, Hb2. by rewrite app_nil_r.
    - congruence.
    - rewrite Hg2, Hd2, Hb2. rewrite app_nil_r. by rewrite app_assoc.
  Qed.
End vec_run.
