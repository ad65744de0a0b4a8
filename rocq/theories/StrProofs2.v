(** Proofs about [String], continued: retain, case, slices, splitting, validation. *)
From Verif Require Export StrProofs SpecStr.
From Coq Require Import ZifyBool ZifyNat ZifyN.
Ltac Zify.zify_post_hook ::= idtac.

Section str2.
  Context {EN : Env}.
  Local Existing Instance u8.
  Notation W := (world N).
  Notation MS := (M (vec * W)).
  Implicit Types (w : W) (v : vec) (bs : list N) (cs : list N).
  Hint Resolve z8 nd8 : core.

  Lemma overwrite_ok w v a b b' c : rep w v (a ++ b ++ c) -> length b' = length b -> b' <> [] ->
    exists w', copy_in (vdata v) (llen a) (Some <$> b') w = (Ret tt, w') /\
      rep w' v (a ++ b' ++ c) /\ keeps v w v w' [].
  Proof.
    intros [Hl [rest Ho]] Hb Hne.
    assert (Hs : (Some <$> a ++ b ++ c) ++ rest <> []).
    { destruct b; [by destruct b'|]. rewrite fmap_app. by destruct a. }
    eexists. split.
    { apply copy_in_slots; [by apply owns_slots|].
      rewrite fmap_length, app_length, fmap_length, !app_length. lia. }
    set (s' := _ ++ _ ++ _).
    assert (s' = (Some <$> a ++ b' ++ c) ++ rest) as Hs'.
    { unfold s'. replace (N.to_nat (llen a)) with (length (Some <$> a)) by (rewrite fmap_length; lia).
      rewrite !fmap_app, <-!app_assoc. rewrite take_app. f_equal. f_equal.
      rewrite app_assoc. replace (length (Some <$> a) + length (Some <$> b'))%nat
        with (length ((Some <$> a) ++ (Some <$> b))) by (rewrite app_length, !fmap_length; lia).
      apply drop_app. }
    destruct (rep_update z8 w v _ s' (a ++ b' ++ c) rest Ho Hs) as [Hr Hk]; [|exact Hs'|].
    { rewrite Hs'. rewrite !app_length, !fmap_length, !app_length. lia. }
    assert (Vec (v_ptr v) (llen (a ++ b' ++ c)) = v) as E.
    { destruct v as [p n]. simpl in *. f_equal. rewrite Hl, !app_length. lia. }
    rewrite E in *. done.
  Qed.

  (** ** [retain] *)
  Definition asked (f : list N -> N -> option bool) (seen : list N) (c : N) : list N * option bool :=
    (seen ++ [c], f seen c).

  Lemma set_len_on_drop_ok w v kb rest junk ks : rep w v (kb ++ rest) -> text ks kb ->
    set_len_on_drop (llen kb + junk) junk (v, w) = (Ret tt, (Vec (v_ptr v) (llen kb), w)) /\
    strep w (Vec (v_ptr v) (llen kb)) ks.
  Proof.
    intros Hr Hk. unfold set_len_on_drop. rewrite bind_usub by lia.
    replace (llen kb + junk - junk) with (llen kb) by lia. rewrite bind_get_fst.
    rewrite (proj1 Hr). rewrite app_length. rewrite bind_debug_assert by lia. split.
    - eapply set_len_rep; [exact Hr|]. rewrite app_length. lia.
    - exists kb. split; [done|]. pose proof (rep_take z8 w v _ (llen kb) Hr) as H.
      replace (N.to_nat (llen kb)) with (length kb) in H by lia. rewrite take_app in H.
      apply H. rewrite app_length. lia.
  Qed.

  Lemma retain_loop_ok f ts : forall seen w v ks kb junk tb fuel,
    text ks kb -> text ts tb -> rep w v (kb ++ junk ++ tb) -> (length tb < fuel)%nat ->
    exists ks' ok r v' w', kept f seen ts ks' ok /\
      str_retain_loop (asked f) seen (llen (kb ++ junk ++ tb)) (llen kb + llen junk) (llen junk) fuel
        (v, w) = (r, (v', w')) /\
      apart_from v w v' w' /\ vcap v' = vcap v /\ strep w' v' (ks ++ ks') /\
      (if ok then exists st, r = Ret st else r = Panic PUser).
  Proof.
    induction ts as [|c ts IH]; intros seen w v ks kb junk tb fuel Hk Ht Hr Hf;
      (destruct fuel as [|fuel]; [lia|]).
    - apply text_nil_inv in Ht as ->. rewrite app_nil_r in *. cbn [str_retain_loop].
      rewrite app_length. destruct (N.ltb_spec (llen kb + llen junk) (N.of_nat (length kb + length junk))); [lia|].
      destruct (set_len_on_drop_ok w v kb junk (llen junk) ks Hr Hk) as [He Hs].
      erewrite bind_Ret by exact He. exists [], true, (Ret seen). eexists _, _. split; [constructor|].
      split; [reflexivity|]. split; [apply af_len|]. split; [done|]. rewrite app_nil_r. split; [done|eauto].
    - inversion Ht as [|? ? cb tb' Hu Ht']; subst.
      pose proof (utf8_len _ _ Hu) as Hul. pose proof (ulen_pos c) as Hup.
      assert (cb <> []) as Hcn by (intros ->; simpl in *; lia).
      pose proof (cap8 _ _ _ Hr) as [Hlc Hfc].
      cbn [str_retain_loop].
      set (len := llen (kb ++ junk ++ cb ++ tb')).
      assert (len = llen kb + llen junk + llen cb + llen tb') as Hlen.
      { unfold len. rewrite !app_length. lia. }
      fold len in Hlc.
      destruct (N.ltb_spec (llen kb + llen junk) len); [|lia].
      rewrite bind_get_fst.
      erewrite bind_on_snd_Ret.
      2: { replace (N.to_nat (len - (llen kb + llen junk))) with (length (cb ++ tb')) by (rewrite app_length; lia).
           destruct Hr as [_ [rest Ho]]. eapply (read_list_slots z8).
           - apply rep_slots; [exact Ho|]. intros E. by apply app_eq_nil in E as [-> [-> [-> _]%app_eq_nil]%app_eq_nil].
           - replace (N.to_nat (llen kb + llen junk)) with (length (Some <$> kb ++ junk))
               by (rewrite fmap_length, app_length; lia).
             rewrite (app_assoc kb junk), (fmap_app Some (kb ++ junk)), <-app_assoc.
             rewrite drop_app. rewrite <-(fmap_length Some (cb ++ tb')). apply take_app. }
      rewrite (text_next _ _ _ Ht). unfold decoded_m. rewrite bind_ret. rewrite len_ulen.
      unfold asked at 1. destruct (f seen c) as [keep|] eqn:Ef.
      + destruct keep; cbn [negb].
        * (* kept *)
          assert (Hstep : exists w1 junk', 
            on_unwind (if 0 <? llen junk then to <- usub (llen kb + llen junk) (llen junk);
               on_snd (copy_in (vdata v) to (Some <$> encode_utf8 c)) ;; ret (llen junk)
             else ret (llen junk)) (set_len_on_drop (llen kb + llen junk) (llen junk)) (v, w)
            = (Ret (llen junk), (v, w1)) /\ rep w1 v ((kb ++ cb) ++ junk' ++ tb') /\
            length junk' = length junk /\ keeps v w v w1 []).
          { destruct (N.ltb_spec 0 (llen junk)) as [Hj|Hj].
            - set (J := junk ++ cb) in *.
              assert (length J = length junk + length cb)%nat as HJ by (unfold J; by rewrite app_length).
              replace (kb ++ junk ++ cb ++ tb') with (kb ++ take (length cb) J ++ drop (length cb) J ++ tb') in Hr.
              2: { f_equal. rewrite app_assoc, take_drop. unfold J. by rewrite <-app_assoc. }
              destruct (overwrite_ok w v kb (take (length cb) J) cb (drop (length cb) J ++ tb') Hr)
                as (w1&He&Hr1&Hk1); [rewrite take_length; lia|done|].
              exists w1, (drop (length cb) J). split_and!.
              + apply on_unwind_Ret. rewrite bind_usub by lia.
                replace (llen kb + llen junk - llen junk) with (llen kb) by lia.
                rewrite (utf8_encode _ _ Hu). by erewrite bind_on_snd_Ret by exact He.
              + rewrite <-app_assoc. exact Hr1.
              + rewrite drop_length. lia.
              + done.
            - assert (junk = []) as -> by (destruct junk; [done|simpl in *; lia]).
              exists w, []. split_and!; try done.
              + rewrite <-app_assoc. exact Hr. + apply keeps_refl. }
          destruct Hstep as (w1&junk'&He&Hr1&Hj'&Hk1). erewrite bind_Ret by exact He.
          erewrite (bind_Ret (on_unwind _ _) _ _ (llen kb + llen junk + ulen c) (v, w1)).
          2: { apply on_unwind_Ret. unfold uadd. rewrite (proj2 (N.leb_le _ _)); [done|].
               unfold usize_max, isize_max in *. lia. }
          destruct (IH (seen ++ [c]) w1 v (ks ++ [c]) (kb ++ cb) junk' tb' fuel) as
            (ks'&ok&r&v'&w'&Hkept&Hrun&Haf&Hcap&Hst&Hres).
          { apply text_app; [done|]. by apply text_one. }
          { done. } { exact Hr1. } { rewrite app_length in Hf. destruct cb; [done|]. simpl in *. lia. }
          exists (c :: ks'), ok, r, v', w'. split; [by constructor|]. split.
          { rewrite <-Hrun. f_equal.
            - unfold len. rewrite !app_length. lia.
            - rewrite app_length. lia.
            - lia. }
          split; [eapply af_trans; [by eapply keeps_af|exact Haf]|]. split; [done|].
          rewrite <-app_assoc in Hst. done.
        * (* dropped *)
          erewrite (bind_Ret (on_unwind _ _) _ _ (llen junk + ulen c) (v, w)).
          2: { apply on_unwind_Ret. unfold uadd. rewrite (proj2 (N.leb_le _ _)); [done|].
               unfold usize_max, isize_max in *. lia. }
          erewrite (bind_Ret (on_unwind _ _) _ _ (llen kb + llen junk + ulen c) (v, w)).
          2: { apply on_unwind_Ret. unfold uadd. rewrite (proj2 (N.leb_le _ _)); [done|].
               unfold usize_max, isize_max in *. lia. }
          destruct (IH (seen ++ [c]) w v ks kb (junk ++ cb) tb' fuel) as
            (ks'&ok&r&v'&w'&Hkept&Hrun&Haf&Hcap&Hst&Hres); try done.
          { by rewrite <-app_assoc. } { rewrite app_length in Hf. destruct cb; [done|]. simpl in *. lia. }
          exists ks', ok, r, v', w'. split; [by constructor|]. split; [|done].
          rewrite <-Hrun. f_equal.
          -- unfold len. by rewrite <-app_assoc.
          -- rewrite app_length. lia.
          -- rewrite app_length. lia.
      + destruct (set_len_on_drop_ok w v kb (junk ++ cb ++ tb') (llen junk) ks Hr Hk) as [He Hs].
        exists [], false, (Panic PUser). eexists _, _. split; [by constructor|].
        split; [by eapply on_unwind_Panic; [|exact He]|].
        split; [apply af_len|]. split; [done|]. by rewrite app_nil_r.
  Qed.

  Lemma str_retain_ok f w v cs : strep w v cs ->
    exists ks ok r v' w', kept f [] cs ks ok /\ str_retain (asked f) [] (v, w) = (r, (v', w')) /\
      apart_from v w v' w' /\ vcap v' = vcap v /\ strep w' v' ks /\
      (if ok then exists st, r = Ret st else r = Panic PUser).
  Proof.
    intros (bs&Ht&Hr). unfold str_retain. rewrite bind_get_fst, (proj1 Hr).
    destruct (retain_loop_ok f cs [] w v [] [] [] bs (S (N.to_nat (llen bs))))
      as (ks&ok&r&v'&w'&?&?&?&?&?&?); [constructor|done|done|lia|].
    exists ks, ok, r, v', w'. done.
  Qed.

  Lemma kept_fun f cs : forall seen ks ok ks' ok',
    kept f seen cs ks ok -> kept f seen cs ks' ok' -> ks = ks' /\ ok = ok'.
  Proof.
    induction cs as [|c cs IH]; intros seen ks ok ks' ok' H H'; inversion H; inversion H'; subst;
      try done; try congruence.
    all: match goal with H1 : kept _ _ _ ?a _, H2 : kept _ _ _ ?b _ |- _ =>
      destruct (IH _ _ _ _ _ H1 H2) as [E1 E2]; subst; done end.
  Qed.

  (** ** ASCII case *)
  Lemma map_bytes_ok g w v bs : rep w v bs ->
    exists w', str_map_bytes g (v, w) = (Ret tt, (v, w')) /\ rep w' v (g <$> bs) /\ keeps v w v w' [].
  Proof.
    intros Hr. unfold str_map_bytes. rewrite bind_get_fst, (bind_bytes _ _ _ _ Hr).
    destruct (N.eqb_spec (llen bs) 0) as [H0|H0].
    - destruct bs; [|simpl in *; lia]. exists w. split; [done|]. split; [done|apply keeps_refl].
    - destruct (overwrite_ok w v [] bs (g <$> bs) []) as (w'&He&Hr'&Hk).
      + by rewrite app_nil_r. + by rewrite fmap_length. + destruct bs; [simpl in *; lia|done].
      + rewrite app_nil_r in Hr'. exists w'. split; [|done]. by apply on_snd_Ret.
  Qed.

  Lemma utf8_upper c cb : utf8 c cb -> utf8 (upper c) (ascii_upper <$> cb).
  Proof.
    assert (forall b, 128 <= b -> ascii_upper b = b) as Hhi.
    { intros b Hb. unfold ascii_upper, in_range. destruct (_ && _) eqn:E; [lia|done]. }
    assert (forall b, 123 <= b -> upper b = b) as Hhi'.
    { intros b Hb. unfold upper. destruct (_ && _) eqn:E; [lia|done]. }
    destruct 1; simpl; rewrite ?Hhi by lia; rewrite ?Hhi' by lia; try by econstructor.
    unfold ascii_upper, in_range, upper. constructor. destruct (_ && _) eqn:E; lia.
  Qed.
  Lemma utf8_lower c cb : utf8 c cb -> utf8 (lower c) (ascii_lower <$> cb).
  Proof.
    assert (forall b, 128 <= b -> ascii_lower b = b) as Hhi.
    { intros b Hb. unfold ascii_lower, in_range. destruct (_ && _) eqn:E; [lia|done]. }
    assert (forall b, 123 <= b -> lower b = b) as Hhi'.
    { intros b Hb. unfold lower. destruct (_ && _) eqn:E; [lia|done]. }
    destruct 1; simpl; rewrite ?Hhi by lia; rewrite ?Hhi' by lia; try by econstructor.
    unfold ascii_lower, in_range, lower. constructor. destruct (_ && _) eqn:E; lia.
  Qed.
  Lemma text_map g h : (forall c cb, utf8 c cb -> utf8 (g c) (h <$> cb)) ->
    forall cs bs, text cs bs -> text (g <$> cs) (h <$> bs).
  Proof.
    intros H. induction 1; [constructor|]. rewrite fmap_app. simpl. constructor; [by apply H|done].
  Qed.

  Lemma str_case_ok g h w v cs : (forall c cb, utf8 c cb -> utf8 (g c) (h <$> cb)) -> strep w v cs ->
    exists w', str_map_bytes h (v, w) = (Ret tt, (v, w')) /\ strep w' v (g <$> cs) /\
      apart_from v w v w'.
  Proof.
    intros H (bs&Ht&Hr). destruct (map_bytes_ok h w v bs Hr) as (w'&He&Hr'&Hk).
    exists w'. split; [done|]. split; [|by eapply keeps_af]. exists (h <$> bs). split; [|done].
    by apply text_map.
  Qed.
  Lemma tlen_map g h cs bs : (forall c cb, utf8 c cb -> utf8 (g c) (h <$> cb)) -> text cs bs ->
    tlen (g <$> cs) = tlen cs.
  Proof.
    intros H Ht. rewrite <-(text_len _ _ Ht), <-(text_len _ _ (text_map _ _ H _ _ Ht)).
    by rewrite fmap_length.
  Qed.

  (** ** Slices *)
  Definition to_bound (l : limit_) : bound :=
    match l with LOpen => Unbounded | LIncl n => Included n | LExcl n => Excluded n end.

  Lemma str_index_ok w v cs lo hi : strep w v cs -> limit_arg lo -> limit_arg hi ->
    exists o, str_index (to_bound lo) (to_bound hi) (v, w) = (o, (v, w)) /\
    ((exists xs ys zs bs, o = Ret bs /\ cs = xs ++ ys ++ zs /\ from_ lo = tlen xs /\
       to_ (tlen cs) hi = tlen (xs ++ ys) /\ text ys bs) \/
     (o = Panic PIndex /\
      ~ (from_ lo <= to_ (tlen cs) hi /\ boundary cs (from_ lo) /\ boundary cs (to_ (tlen cs) hi)))).
  Proof.
    intros (bs&Ht&Hr) Hlo Hhi. unfold str_index. rewrite (bind_bytes _ _ _ _ Hr).
    pose proof (text_len _ _ Ht) as Hl. pose proof (cap8 _ _ _ Hr) as [Hlc Hfc].
    assert (Hbig : forall i, boundary cs i -> i <= isize_max).
    { intros i (xs&ys&->&->). rewrite tlen_app in Hl. lia. }
    assert (Hmain : forall s e, s = from_ lo -> e = to_ (tlen cs) hi ->
      exists o, (if (s <=? e) && is_char_boundary bs s && is_char_boundary bs e
        then ret (take (N.to_nat (e - s)) (drop (N.to_nat s) bs))
        else throw PIndex : MS (list N)) (v, w) = (o, (v, w)) /\
      ((exists xs ys zs b, o = Ret b /\ cs = xs ++ ys ++ zs /\ from_ lo = tlen xs /\
         to_ (tlen cs) hi = tlen (xs ++ ys) /\ text ys b) \/
       (o = Panic PIndex /\
        ~ (from_ lo <= to_ (tlen cs) hi /\ boundary cs (from_ lo) /\ boundary cs (to_ (tlen cs) hi))))).
    { intros s e <- <-. destruct (_ && _) eqn:E.
      - apply andb_true_iff in E as [[Hse Hs]%andb_true_iff He].
        apply (boundary_ok _ _ _ Ht) in Hs. apply (boundary_ok _ _ _ Ht) in He.
        eexists. split; [reflexivity|]. left.
        destruct (text_split _ _ _ Ht Hs) as (xs&ys&Hc1&Hs1&Ha&Hb).
        assert (boundary ys (e - s)) as Hb2.
        { destruct He as (p&q&Hc2&He2). rewrite Hc1 in Hc2.
          assert (tlen xs <= tlen p) as Hxp by lia.
          assert (exists m, p = xs ++ m) as [m ->].
          { apply app_eq_inv in Hc2 as [(k&->&->)|(k&->&->)]; [|eauto].
            rewrite tlen_app in Hxp. pose proof (tlen_ge k). destruct k; [|simpl in *; lia].
            exists []. by rewrite !app_nil_r. }
          rewrite <-app_assoc in Hc2. apply app_inv_head in Hc2 as ->.
          exists m, q. split; [done|]. rewrite He2, Hs1, tlen_app. lia. }
        destruct (text_split _ _ _ Hb Hb2) as (m&q&->&Hm&Hm1&_).
        exists xs, m, q. eexists. split; [reflexivity|]. split; [done|]. split; [done|].
        split; [|exact Hm1]. rewrite tlen_app. lia.
      - eexists. split; [reflexivity|]. right. split; [done|]. intros (H1&H2&H3).
        apply (boundary_ok _ _ _ Ht) in H2, H3. rewrite H2, H3, !andb_true_r in E. lia. }
    unfold str_range. rewrite Hl.
    assert (Hnob : forall i, i = usize_max -> ~ boundary cs (i + 1)).
    { intros i -> Hb%Hbig. unfold usize_max, isize_max in Hb. lia. }
    destruct lo as [|nlo|nlo]; cbn [to_bound from_]; rewrite ?bind_ret.
    3: destruct (N.eqb_spec nlo usize_max) as [E1|E1]; rewrite ?bind_ret, ?bind_throw.
    3: { eexists. split; [reflexivity|]. right. split; [done|]. intros (_&H2&_). by eapply Hnob. }
    all: destruct hi as [|nhi|nhi]; cbn [to_bound to_]; rewrite ?bind_ret; try by apply Hmain.
    all: destruct (N.eqb_spec nhi usize_max) as [E2|E2]; rewrite ?bind_ret, ?bind_throw; try by apply Hmain.
    all: eexists; (split; [reflexivity|]); right; (split; [done|]); intros (_&_&H3); by eapply Hnob.
  Qed.

  (** ** [split_off] followed by dropping what it returned *)
  Lemma str_split_off_ok w v cs i : strep w v cs ->
    (~ boundary cs i /\ str_split_off i (v, w) = (Panic PAssert, (v, w))) \/
    (boundary cs i /\ exists r w', str_split_off i (v, w) = (r, (v, w')) /\ strep w' v cs /\
       ((exists o, r = Ret o /\ rep w' o [] /\ vrest o w' = heap w /\ vcap o = tlen cs - i) \/
        (r = Panic PUnwrap /\ heap w' = heap w /\ refuses))).
  Proof.
    intros (bs&Ht&Hr). unfold str_split_off. rewrite (bind_bytes _ _ _ _ Hr).
    destruct (is_char_boundary bs i) eqn:E.
    - right. apply (boundary_ok _ _ _ Ht) in E. split; [done|]. rewrite bind_assert by done.
      destruct (split_off_ok z8 w v bs i Hr) as (r&w'&He&Hr'&Hc). exists r, w'.
      split; [done|]. split; [by exists bs|]. rewrite <-(text_len _ _ Ht).
      destruct Hc as [?|(->&(?&_)&?)]; [by left|]. by right.
    - left. split; [|by rewrite bind_assert_false].
      intros Hb. apply (boundary_ok _ _ _ Ht) in Hb. congruence.
  Qed.
  Lemma drop_fresh w w' v o cs : strep w v cs -> strep w' v cs -> rep w' o [] -> vrest o w' = heap w ->
    exists w2, vec_drop_val o w' = (Ret tt, w2) /\ strep w2 v cs /\ heap w2 = heap w.
  Proof.
    intros (b0&_&Hr0) (bs&Ht&Hr) Ho Hv.
    destruct (vec_drop_val_gone z8 w' o [] Ho nd8) as (w2&He&Hg).
    exists w2. split; [done|]. split.
    - exists bs. split; [done|]. eapply (gone_other z8); [exact Hr| |exact Hg].
      destruct Hr0 as [_ [rest0 (_&_&_&Hd0)]]. unfold apart, vrest in *.
      destruct (vdata v) as [|b]; [done|]. destruct (vdata o) as [|c]; [done|].
      intros ->. destruct Hd0 as (_&_&Hh). simpl in Hv. rewrite <-Hv, lookup_delete in Hh. done.
    - destruct Hg as (Hh&_). congruence.
  Qed.

  (** ** [from_utf8] *)
  Lemma str_from_utf8_ok w v bs : rep w v bs ->
    (exists cs, text cs bs /\ str_from_utf8 v w = (Ret (Some v), w)) \/
    (~ wellformed bs /\ exists w', str_from_utf8 v w = (Ret None, w') /\ gone v w w' bs).
  Proof.
    intros Hr. unfold str_from_utf8. erewrite bind_Ret by (by apply (as_slice_ok z8)).
    destruct (utf8_valid bs) eqn:E.
    - apply utf8_valid_ok in E as [cs Ht]. left. by exists cs.
    - right. split; [intros H%utf8_valid_ok; congruence|].
      destruct (vec_drop_val_gone z8 w v bs Hr nd8) as (w2&He&Hg).
      exists w2. split; [|done]. by erewrite bind_Ret by exact He.
  Qed.
End str2.
