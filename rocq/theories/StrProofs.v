(** Proofs about [String]: one lemma per operation, against texts (sequences of scalar values). *)
From Verif Require Export UtfProofs StrModel VecRun.
From Coq Require Import ZifyBool ZifyNat ZifyN.
Ltac Zify.zify_post_hook ::= idtac.

Section str.
  Context {EN : Env}.
  Local Existing Instance u8.
  Notation W := (world N).
  Notation MS := (M (vec * W)).
  Implicit Types (w : W) (v : vec) (bs : list N) (cs : list N).

  Lemma z8 : 0 < @t_size N u8. Proof. done. Qed.
  Lemma nd8 : @no_drop_panic N u8. Proof. done. Qed.
  Lemma fits8 n : @fits N u8 n <-> n <= isize_max.
  Proof. unfold fits, limit. simpl. unfold isize_max. lia. Qed.
  Hint Resolve z8 nd8 : core.

  Lemma cap8 w v bs : rep w v bs -> llen bs <= vcap v /\ vcap v <= isize_max.
  Proof. intros Hr. destruct (rep_cap z8 _ _ _ Hr) as [? Hf]. split; [done|]. by apply (proj1 (fits8 _)). Qed.

  (** [v] is a string showing the text [cs]. *)
  Definition strep (w : W) (v : vec) (cs : list N) : Prop := exists bs, text cs bs /\ rep w v bs.
  (** Nothing but the string was touched. *)
  Definition apart_from (v : vec) (w : W) (v' : vec) (w' : W) : Prop := exists ds, keeps v w v' w' ds.

  Lemma af_refl v w : apart_from v w v w.
  Proof. exists []. apply keeps_refl. Qed.
  Lemma af_trans v1 w1 v2 w2 v3 w3 :
    apart_from v1 w1 v2 w2 -> apart_from v2 w2 v3 w3 -> apart_from v1 w1 v3 w3.
  Proof. intros [d1 H1] [d2 H2]. exists (d1 ++ d2). by eapply keeps_trans. Qed.
  Lemma keeps_af v w v' w' ds : keeps v w v' w' ds -> apart_from v w v' w'.
  Proof. by exists ds. Qed.
  Lemma af_rest v w v' w' : apart_from v w v' w' -> vrest v' w' = vrest v w.
  Proof. by intros [ds (?&_)]. Qed.
  Lemma af_len v w n : apart_from v w (Vec (v_ptr v) n) w.
  Proof. exists []. apply keeps_len. Qed.

  Lemma clone8 (l : list N) : mapM (@t_clone N u8) l = Some l.
  Proof. induction l as [|x l IH]; [done|]. simpl in *. by rewrite IH. Qed.

  Lemma str_bytes_ok w v bs : rep w v bs -> str_bytes (v, w) = (Ret bs, (v, w)).
  Proof.
    intros Hr. unfold str_bytes. rewrite bind_get_fst. apply on_snd_Ret. by apply as_slice_ok.
  Qed.
  Lemma bind_bytes {A} w v bs (k : list N -> MS A) :
    rep w v bs -> bind str_bytes k (v, w) = k bs (v, w).
  Proof. intros Hr. by rewrite (bind_Ret _ _ _ _ _ (str_bytes_ok _ _ _ Hr)). Qed.

  Lemma set_len_rep w v bs n : rep w v bs -> n <= llen bs ->
    vec_set_len n (v, w) = (Ret tt, (Vec (v_ptr v) n, w)).
  Proof.
    intros [_ [rest Ho]] Hn. eapply (vec_set_len_eq z8); [exact Ho|].
    rewrite app_length, fmap_length. lia.
  Qed.

  (** ** Appending *)
  Lemma extend8 w v bs s : rep w v bs -> llen bs + llen s <= isize_max ->
    exists r v' w', vec_extend_from_slice s (v, w) = (r, (v', w')) /\ keeps v w v' w' [] /\
      vcap v <= vcap v' /\ vcap v' <= N.max (vcap v) (llen bs + llen s) /\
      ((r = Ret tt /\ rep w' v' (bs ++ s)) \/
       (r = Panic PUnwrap /\ v' = v /\ rep w' v' bs /\ refuses)).
  Proof.
    intros Hr Hf. destruct (extend_from_slice_ok z8 s w v bs Hr) as (r&v'&w'&ys&He&Hr'&Hk&Hc1&Hc2&Hc).
    { by apply fits8. }
    exists r, v', w'. split_and!; try done. destruct Hc as [(->&Hm)|[(_&l1&x&l2&_&_&Hx)|(->&->&->&?)]].
    - rewrite clone8 in Hm. injection Hm as <-. by left.
    - done.
    - rewrite app_nil_r in Hr'. by right.
  Qed.

  Lemma str_push_str_ok w v cs ds s : strep w v cs -> text ds s -> tlen cs + tlen ds <= isize_max ->
    exists r v' w', str_push_str s (v, w) = (r, (v', w')) /\ apart_from v w v' w' /\
      vcap v <= vcap v' /\ vcap v' <= N.max (vcap v) (tlen cs + tlen ds) /\
      ((r = Ret tt /\ strep w' v' (cs ++ ds)) \/
       (r = Panic PUnwrap /\ v' = v /\ strep w' v' cs /\ refuses)).
  Proof.
    intros (bs&Ht&Hr) Hs Hf. rewrite <-(text_len _ _ Ht), <-(text_len _ _ Hs) in *.
    destruct (extend8 w v bs s Hr Hf) as (r&v'&w'&He&Hk&Hc1&Hc2&Hc).
    exists r, v', w'. split; [exact He|]. split; [by eapply keeps_af|]. split; [done|]. split; [done|].
    destruct Hc as [(->&Hr')|(->&->&Hr'&?)].
    - left. split; [done|]. exists (bs ++ s). split; [by apply text_app|done].
    - right. split; [done|]. split; [done|]. split; [|done]. by exists bs.
  Qed.

  Lemma ulen_ascii c : len_utf8 c = 1 <-> c < 128.
  Proof. unfold len_utf8. repeat case_match; lia. Qed.

  Lemma str_push_ok w v cs c : strep w v cs -> scalar c -> tlen cs + ulen c <= isize_max ->
    e_strict = false \/ c < 128 ->
    exists r v' w', str_push c (v, w) = (r, (v', w')) /\ apart_from v w v' w' /\
      vcap v <= vcap v' /\ vcap v' <= N.max (vcap v) (tlen cs + ulen c) /\
      ((r = Ret tt /\ strep w' v' (cs ++ [c])) \/
       (r = Panic PUnwrap /\ v' = v /\ strep w' v' cs /\ refuses)).
  Proof.
    intros (bs&Ht&Hr) Hs Hf Hst. unfold str_push.
    pose proof (encode_utf8_ok _ Hs) as Hu. pose proof (text_len _ _ Ht) as Hl.
    destruct (N.eqb_spec (len_utf8 c) 1) as [H1|H1].
    - apply ulen_ascii in H1. assert (ulen c = 1) as Hul by (by apply ulen_ascii).
      destruct (push_ok z8 w v bs c Hr) as (r&v'&w'&He&Hc); [apply fits8; lia|].
      destruct Hc as [(->&Hr'&Hk&Hc)|(->&Hr'&Hk&->&Hc&Hrf)].
      + exists (Ret tt), v', w'. split; [exact He|]. split; [by eapply keeps_af|].
        split; [lia|]. split; [lia|]. left. split; [done|]. exists (bs ++ [c]). split; [|done].
        apply text_app; [done|]. apply text_one. by constructor.
      + rewrite unwound_ok in He by done. exists (Panic PUnwrap), v, w'. split; [exact He|].
        split; [by eapply keeps_af|]. split; [lia|]. split; [lia|]. right.
        split; [done|]. split; [done|]. split; [|done]. by exists bs.
    - assert (uninit_bits (v, w) = (Ret tt, (v, w))) as Hub.
      { unfold uninit_bits, assume. destruct Hst as [->|Hst]; [done|].
        exfalso. apply H1. by apply ulen_ascii. }
      rewrite (bind_Ret _ _ _ _ _ Hub).
      destruct (str_push_str_ok w v cs [c] (encode_utf8 c)) as (r&v'&w'&He&Hrest).
      + by exists bs.
      + by apply text_one.
      + simpl. lia.
      + simpl in Hrest. rewrite N.add_0_r in Hrest. exists r, v', w'. done.
  Qed.
  Lemma str_push_strict w v c : e_strict = true -> 128 <= c ->
    str_push c (v, w) = (UB UninitRead, (v, w)).
  Proof.
    intros Hs Hc. unfold str_push. destruct (N.eqb_spec (len_utf8 c) 1) as [H1%ulen_ascii|_]; [lia|].
    unfold uninit_bits, assume. by rewrite Hs.
  Qed.

  (** ** Removing at the end *)
  Lemma strep_take w v cs ds bs : text (cs ++ ds) bs -> rep w v bs ->
    strep w (Vec (v_ptr v) (tlen cs)) cs.
  Proof.
    intros Ht Hr. destruct (text_app_inv _ _ _ Ht) as (a&b&->&Ha&Hb).
    exists a. split; [done|]. rewrite <-(text_len _ _ Ha).
    pose proof (rep_take z8 w v (a ++ b) (llen a) Hr) as H.
    replace (N.to_nat (llen a)) with (length a) in H by lia. rewrite take_app in H.
    apply H. rewrite app_length. lia.
  Qed.

  Lemma str_pop_ok w v cs : strep w v cs ->
    exists v' w', str_pop (v, w) = (Ret (last cs), (v', w')) /\ apart_from v w v' w' /\
      vcap v' = vcap v /\ strep w' v' (take (length cs - 1) cs).
  Proof.
    intros (bs&Ht&Hr). unfold str_pop. rewrite (bind_bytes _ _ _ _ Hr).
    destruct cs as [|c cs _] using rev_ind.
    - apply text_nil_inv in Ht as ->. exists v, w. simpl. split; [done|].
      split; [apply af_refl|]. split; [done|]. exists []. split; [constructor|done].
    - rewrite (text_snoc_back _ _ _ Ht). unfold decoded_m. rewrite bind_ret.
      pose proof (text_len _ _ Ht) as Hl. rewrite tlen_app in Hl. simpl in Hl.
      rewrite len_ulen. rewrite bind_usub by lia.
      replace (llen bs - ulen c) with (tlen cs) by lia.
      rewrite (bind_Ret _ _ _ _ _ (set_len_rep _ _ _ (tlen cs) Hr ltac:(lia))).
      exists (Vec (v_ptr v) (tlen cs)), w. rewrite last_snoc. split; [done|].
      split; [apply af_len|]. split; [done|].
      rewrite app_length. simpl. replace (length cs + 1 - 1)%nat with (length cs) by lia.
      rewrite take_app. by eapply strep_take.
  Qed.

  Lemma str_clear_ok w v cs : strep w v cs ->
    exists v' w', str_clear (v, w) = (Ret tt, (v', w')) /\ apart_from v w v' w' /\
      vcap v' = vcap v /\ strep w' v' [].
  Proof.
    intros (bs&Ht&Hr). pose proof (clear_ok z8 w v bs Hr) as He.
    rewrite drops_until_ok in He by done.
    eexists _, _. split; [exact He|]. split; [exact (keeps_af _ _ v _ _ (keeps_drops v w bs))|].
    split; [done|]. exists []. split; [constructor|].
    pose proof (rep_take z8 w v bs 0 Hr) as [? [rest Ho]]; [lia|]. split; [done|].
    exists rest. by apply owns_drops.
  Qed.

  Lemma str_truncate_ok w v cs n : strep w v cs ->
    (tlen cs <= n /\ str_truncate n (v, w) = (Ret tt, (v, w))) \/
    (n < tlen cs /\ ~ boundary cs n /\ str_truncate n (v, w) = (Panic PAssert, (v, w))) \/
    (exists xs ys v' w', cs = xs ++ ys /\ n = tlen xs /\
      str_truncate n (v, w) = (Ret tt, (v', w')) /\ apart_from v w v' w' /\ vcap v' = vcap v /\
      strep w' v' xs).
  Proof.
    intros (bs&Ht&Hr). unfold str_truncate. rewrite (bind_bytes _ _ _ _ Hr).
    pose proof (text_len _ _ Ht) as Hl.
    destruct (N.ltb_spec n (llen bs)) as [Hn|Hn]; [|left; split; [lia|done]].
    right. destruct (is_char_boundary bs n) eqn:E.
    - right. apply (boundary_ok _ _ _ Ht) in E. rewrite bind_assert by done.
      destruct (text_split _ _ _ Ht E) as (xs&ys&->&->&Ha&Hb).
      destruct (truncate_quiet z8 w v bs (tlen xs) Hr nd8) as (v'&w'&He&Hr'&Hk&Hp).
      exists xs, ys, v', w'. split; [done|]. split; [done|]. split; [done|].
      split; [by eapply keeps_af|]. split; [unfold vcap; by rewrite Hp|].
      eexists. split; [exact Ha|exact Hr'].
    - left. split; [lia|]. split.
      + intros Hb. apply (boundary_ok _ _ _ Ht) in Hb. congruence.
      + by rewrite bind_assert_false.
  Qed.

  (** ** In the middle *)
  Lemma str_range_from w v bs cs idx : text cs bs -> idx <= usize_max ->
    (~ boundary cs idx /\ str_range bs (Included idx) Unbounded (v, w) = (Panic PIndex, (v, w))) \/
    (exists xs ys, cs = xs ++ ys /\ idx = tlen xs /\ text xs (take (N.to_nat idx) bs) /\
      text ys (drop (N.to_nat idx) bs) /\
      str_range bs (Included idx) Unbounded (v, w) = (Ret (drop (N.to_nat idx) bs), (v, w))).
  Proof.
    intros Ht Hi. unfold str_range. rewrite !bind_ret.
    pose proof (text_len _ _ Ht) as Hl.
    assert (is_char_boundary bs (llen bs) = true) as Hend.
    { apply (boundary_ok _ _ _ Ht). rewrite Hl. apply boundary_end. }
    rewrite Hend, andb_true_r.
    destruct (is_char_boundary bs idx) eqn:E.
    - apply (boundary_ok _ _ _ Ht) in E as Hb.
      destruct (text_split _ _ _ Ht Hb) as (xs&ys&Hcs&Hidx&Ha&Hbb).
      assert (idx <= llen bs) as Hle by (rewrite Hl, Hcs, tlen_app; lia).
      destruct (N.leb_spec idx (llen bs)); [|lia]. simpl. right. exists xs, ys.
      split; [done|]. split; [done|]. split; [done|]. split; [done|].
      rewrite take_ge; [done|]. rewrite drop_length. lia.
    - rewrite andb_false_r. left. split; [|done].
      intros Hb. apply (boundary_ok _ _ _ Ht) in Hb. congruence.
  Qed.

  Lemma str_remove_ok w v cs idx : strep w v cs -> idx <= usize_max ->
    (~ boundary cs idx /\ str_remove idx (v, w) = (Panic PIndex, (v, w))) \/
    (idx = tlen cs /\ str_remove idx (v, w) = (Panic PAssert, (v, w))) \/
    (exists xs c ys v' w', cs = xs ++ c :: ys /\ idx = tlen xs /\
      str_remove idx (v, w) = (Ret c, (v', w')) /\ apart_from v w v' w' /\ vcap v' = vcap v /\
      strep w' v' (xs ++ ys)).
  Proof.
    intros (bs&Ht&Hr) Hi. unfold str_remove. rewrite (bind_bytes _ _ _ _ Hr).
    destruct (str_range_from w v bs cs idx Ht Hi) as [[Hb He]|(xs&ys&->&->&Ha&Hb&He)].
    { left. split; [done|]. by erewrite bind_Panic by exact He. }
    right. erewrite bind_Ret by exact He. destruct ys as [|c ys].
    - left. rewrite app_nil_r. split; [done|]. apply text_nil_inv in Hb as ->. done.
    - right. rewrite (text_next _ _ _ Hb). unfold decoded_m. rewrite bind_ret, len_ulen.
      pose proof (text_len _ _ Ht) as Hl. rewrite tlen_app in Hl. simpl in Hl.
      destruct Hr as [Hvl [rest Ho]]. pose proof (owns_bound z8 _ _ _ Ho) as Hbd.
      rewrite app_length, fmap_length in Hbd.
      rewrite bind_uadd by (unfold usize_max, isize_max in *; lia). rewrite bind_usub by lia.
      rewrite bind_get_fst.
      inversion Hb as [|? ? cb yb Hu Hy Ec Eb]; subst.
      pose proof (utf8_len _ _ Hu) as Hul. pose proof (text_len _ _ Hy) as Hyl.
      pose proof (text_len _ _ Ha) as Hal.
      assert (bs = take (N.to_nat (tlen xs)) bs ++ cb ++ yb) as Hbs.
      { rewrite Eb. symmetry. apply take_drop. }
      set (xb := take (N.to_nat (tlen xs)) bs) in *. clearbody xb. subst bs. clear Eb He.
      rewrite !app_length in Hbd, Hl |- *.
      assert (Hne : (Some <$> xb ++ cb ++ yb) ++ rest <> []).
      { destruct (utf8_bytes _ _ Hu) as (b&tl&->&_). rewrite !fmap_app. by destruct xb. }
      pose proof (owns_slots _ _ _ Ho Hne) as Hsl.
      erewrite bind_on_snd_Ret.
      2: { apply (copy_at_slots _ _ _ _ _ _ _ _ z8 Hsl Hsl);
             rewrite app_length, fmap_length, !app_length; lia. }
      rewrite bind_usub by lia. rewrite bind_usub by lia.
      set (s' := copied _ _ _ _ _).
      assert (Hs' : exists rest', s' = (Some <$> xb ++ yb) ++ rest').
      { unfold s'. rewrite (copied_app (Some <$> xb ++ cb) (Some <$> yb) [] rest).
        2: { by rewrite !fmap_app, <-!app_assoc. }
        2: { rewrite fmap_length, app_length. lia. }
        2: { rewrite fmap_length. lia. }
        eexists. rewrite (fmap_app _ xb yb), <-app_assoc. f_equal.
        rewrite !fmap_app, <-!app_assoc. rewrite <-Hal.
        replace (N.to_nat (llen xb)) with (length (Some <$> xb)) by (rewrite fmap_length; lia).
        apply take_app. }
      destruct Hs' as [rest' Hs'].
      assert (length s' = length ((Some <$> xb ++ cb ++ yb) ++ rest)) as Hls.
      { unfold s', copied. rewrite !app_length, !take_length, !drop_length, !app_length, !fmap_length,
          !app_length. lia. }
      destruct (rep_update z8 w v _ s' (xb ++ yb) rest' Ho Hne Hls Hs') as [Hr' Hk'].
      destruct (owns_set_slots z8 _ _ _ _ Ho Hls Hne) as (Ho'&_).
      assert (text (xs ++ ys) (xb ++ yb)) as Htt by (by apply text_app).
      pose proof (text_len _ _ Htt) as Htl. rewrite app_length, tlen_app in Htl.
      replace (N.of_nat (length xb + (length cb + length yb)) - (tlen xs + ulen c - tlen xs))
        with (llen (xb ++ yb)) by (rewrite app_length; lia).
      erewrite (bind_Ret (vec_set_len _)).
      2: { eapply (vec_set_len_eq z8); [exact Ho'|]. rewrite Hls.
           rewrite !app_length, fmap_length, !app_length. lia. }
      exists xs, c, ys. eexists _, _. split; [done|]. split; [done|]. split; [reflexivity|].
      split; [by eapply keeps_af|]. split; [done|]. eexists. split; [exact Htt|exact Hr'].
  Qed.

  Lemma str_insert_bytes_ok w v a b s : rep w v (a ++ b) ->
    (vcap v < llen a + llen b + llen s ->
     amortized (vcap v) (llen a + llen b + llen s) <= isize_max) ->
    exists r v' w', str_insert_bytes (llen a) s (v, w) = (r, (v', w')) /\ keeps v w v' w' [] /\
      (vcap v' = vcap v \/
       vcap v < llen a + llen b + llen s /\ vcap v' = amortized (vcap v) (llen a + llen b + llen s)) /\
      ((r = Ret tt /\ rep w' v' (a ++ s ++ b)) \/
       (r = Panic PUnwrap /\ v' = v /\ rep w' v' (a ++ b) /\ refuses)).
  Proof.
    intros Hr Hf. unfold str_insert_bytes. rewrite bind_get_fst. rewrite (proj1 Hr).
    destruct (reserve_ok z8 w v (a ++ b) (llen s) Hr) as (r&v1&w1&Hm&Hk&Hr1&Hcase).
    { intros H. apply fits8. rewrite app_length in *.
      replace (N.of_nat (length a + length b)) with (llen a + llen b) in * by lia. by apply Hf. }
    rewrite app_length in *. replace (N.of_nat (length a + length b)) with (llen a + llen b) in * by lia.
    destruct Hcase as [(->&Hc1&Hc2&Hc3&Hc4)|(->&->&?&?)]; cycle 1.
    { erewrite bind_Panic by exact Hm. eexists _, _, _. split; [reflexivity|]. split; [done|].
      split; [by left|]. right. split; [done|]. split; [done|]. split; [done|].
      unfold refuses; by eauto. }
    erewrite bind_Ret by exact Hm. rewrite bind_get_fst.
    assert (Hcap : vcap v1 = vcap v \/
      vcap v < llen a + llen b + llen s /\ vcap v1 = amortized (vcap v) (llen a + llen b + llen s)).
    { destruct (N.ltb_spec (vcap v) (llen a + llen b + llen s)) as [Hlt|Hge].
      - right. split; [done|]. by apply Hc4.
      - left. destruct Hc3 as [-> _]; [lia|done]. }
    destruct Hr1 as [Hvl [rest Ho]]. pose proof (owns_cap z8 _ _ _ Ho) as Hvc.
    pose proof (owns_bound z8 _ _ _ Ho) as Hbd. rewrite app_length, fmap_length, app_length in *.
    rewrite bind_uadd by (unfold usize_max, isize_max in *; lia). rewrite bind_usub by lia.
    replace (llen a + llen b - llen a) with (llen b) by lia.
    destruct (decide ((Some <$> a ++ b) ++ rest = [])) as [Hnil|Hne].
    { apply app_eq_nil in Hnil as [Hab ->]. apply fmap_nil_inv in Hab. apply app_eq_nil in Hab as [-> ->].
      simpl in *. assert (s = []) as -> by (destruct s; [done|simpl in *; lia]). simpl.
      unfold copy_at. simpl. erewrite bind_on_snd_Ret by reflexivity.
      erewrite bind_on_snd_Ret by reflexivity. rewrite bind_uadd by done.
      erewrite (vec_set_len_eq z8); [|exact Ho|lia].
      eexists _, _, _. split; [reflexivity|]. split; [exact Hk|]. split; [exact Hcap|]. left.
      split; [done|]. split; [done|]. by exists []. }
    pose proof (owns_slots _ _ _ Ho Hne) as Hsl.
    erewrite bind_on_snd_Ret.
    2: { apply (copy_at_slots _ _ _ _ _ _ _ _ z8 Hsl Hsl);
           rewrite app_length, fmap_length, !app_length; lia. }
    set (s1 := copied _ _ _ _ _).
    assert (Hs1 : s1 = take (length a + length s) ((Some <$> a ++ b) ++ rest) ++ (Some <$> b) ++
                  drop (length a + length s + length b) ((Some <$> a ++ b) ++ rest)).
    { unfold s1. rewrite (copied_app (Some <$> a) (Some <$> b) [] rest).
      - f_equal; [f_equal; lia|]. f_equal. f_equal. lia.
      - by rewrite fmap_app, <-app_assoc.
      - rewrite fmap_length. lia.
      - rewrite fmap_length. lia. }
    assert (length s1 = length ((Some <$> a ++ b) ++ rest)) as Hl1.
    { rewrite Hs1, !app_length, take_length, drop_length, !app_length, !fmap_length, app_length. lia. }
    pose proof (slots_at_set _ _ _ s1 Hsl) as Hsl1.
    destruct (owns_set_slots z8 _ _ _ _ Ho Hl1 Hne) as (Ho1&Hv1&Hd1&Hcu1&Hn1).
    assert (Hs2 : exists w2 rest2, (if llen s =? 0 then ret tt else copy_in (vdata v1) (llen a) (Some <$> s))
        (set_slots (vdata v1) s1 w1) = (Ret tt, w2) /\
        owns w2 v1 ((Some <$> a ++ s ++ b) ++ rest2) /\ vrest v1 w2 = vrest v1 w1 /\
        drops w2 = drops w1 /\ cur_scope w2 = cur_scope w1 /\ next_id w2 = next_id w1).
    { assert (Hta : forall z, take (length a) (Some <$> (a ++ z)) = Some <$> a).
      { intros z. rewrite fmap_app. rewrite <-(fmap_length Some a). apply take_app. }
      destruct (N.eqb_spec (llen s) 0) as [H0|H0].
      - assert (s = []) as -> by (destruct s; [done|simpl in *; lia]).
        eexists _, (drop (length a + length b) ((Some <$> a ++ b) ++ rest)). split; [reflexivity|].
        split; [|done]. simpl in *. rewrite Nat.add_0_r in Hs1.
        assert ((Some <$> a ++ b) ++ drop (length a + length b) ((Some <$> a ++ b) ++ rest) = s1) as ->;
          [|exact Ho1].
        rewrite Hs1. rewrite fmap_app at 1. rewrite <-app_assoc. f_equal.
        rewrite take_app_le by (rewrite fmap_length, app_length; lia). by rewrite Hta.
      - set (s2 := take (N.to_nat (llen a)) s1 ++ (Some <$> s) ++ drop (N.to_nat (llen a) + length (Some <$> s)) s1).
        assert (length s2 = length s1) as Hl2.
        { unfold s2. rewrite !app_length, take_length, drop_length, !fmap_length.
          rewrite Hl1, app_length, fmap_length, app_length. lia. }
        assert (s1 <> []) as Hne1 by (intros ->; destruct ((Some <$> a ++ b) ++ rest); done).
        destruct (owns_set_slots z8 _ _ _ _ Ho1 Hl2 Hne1) as (Ho2&Hv2&Hd2&Hcu2&Hn2).
        eexists _, (drop (length a + length s + length b) ((Some <$> a ++ b) ++ rest)). split.
        { apply copy_in_slots; [exact Hsl1|]. rewrite Hl1, fmap_length, !app_length, fmap_length, app_length. lia. }
        fold s2. split; [|split_and!; congruence].
        assert ((Some <$> a ++ s ++ b) ++ drop (length a + length s + length b) ((Some <$> a ++ b) ++ rest) = s2) as ->;
          [|exact Ho2].
        unfold s2. rewrite Hs1. rewrite !fmap_app, <-!app_assoc. rewrite fmap_length.
        replace (N.to_nat (llen a)) with (length a) by lia.
        rewrite (take_app_le (take _ _)) by (rewrite take_length, !app_length, !fmap_length; lia).
        rewrite take_take, Nat.min_l by lia. rewrite (take_app_le (Some <$> a)) by (rewrite fmap_length; lia).
        rewrite take_ge by (rewrite fmap_length; lia). f_equal. f_equal.
        rewrite (drop_app_ge (take _ _)) by (rewrite take_length; lia).
        rewrite take_length, !app_length, !fmap_length.
        replace (length a + length s - (length a + length s) `min` (length a + (length b + length rest)))%nat
          with 0%nat by lia. done. }
    destruct Hs2 as (w2&rest2&He2&Ho2&Hv2&Hd2&Hcu2&Hn2).
    erewrite bind_on_snd_Ret by exact He2.
    rewrite bind_uadd by (unfold usize_max, isize_max in *; lia).
    erewrite (vec_set_len_eq z8); [|exact Ho2|].
    2: { rewrite app_length, fmap_length, !app_length. lia. }
    eexists _, _, _. split; [reflexivity|]. split.
    - destruct Hk as (Hk1&Hk2&Hk3&Hk4). unfold keeps. change (vrest (Vec (v_ptr v1) _) w2) with (vrest v1 w2).
      split_and!; [congruence|congruence|congruence|lia].
    - split; [exact Hcap|]. left. split; [done|]. split; [simpl; rewrite !app_length; lia|].
      exists rest2. exact Ho2.
  Qed.

  Definition roomy_insert v n : Prop := vcap v < n -> amortized (vcap v) n <= isize_max.

  Lemma str_insert_str_ok w v cs idx ds s : strep w v cs -> text ds s ->
    roomy_insert v (tlen cs + tlen ds) ->
    (~ boundary cs idx /\ str_insert_str idx s (v, w) = (Panic PAssert, (v, w))) \/
    (exists xs ys r v' w', cs = xs ++ ys /\ idx = tlen xs /\
      str_insert_str idx s (v, w) = (r, (v', w')) /\ apart_from v w v' w' /\
      (vcap v' = vcap v \/
       vcap v < tlen cs + tlen ds /\ vcap v' = amortized (vcap v) (tlen cs + tlen ds)) /\
      ((r = Ret tt /\ strep w' v' (xs ++ ds ++ ys)) \/
       (r = Panic PUnwrap /\ v' = v /\ strep w' v' cs /\ refuses))).
  Proof.
    intros (bs&Ht&Hr) Hs Hf. unfold str_insert_str. rewrite (bind_bytes _ _ _ _ Hr).
    destruct (is_char_boundary bs idx) eqn:E.
    - right. apply (boundary_ok _ _ _ Ht) in E. rewrite bind_assert by done.
      destruct (text_split _ _ _ Ht E) as (xs&ys&->&Hi&Ha&Hb).
      rewrite <-(take_drop (N.to_nat idx) bs) in Hr.
      set (a := take (N.to_nat idx) bs) in *. set (b := drop (N.to_nat idx) bs) in *. clearbody a b.
      rewrite Hi. rewrite <-(text_len _ _ Ha).
      rewrite tlen_app in Hf |- *. rewrite <-(text_len _ _ Ha), <-(text_len _ _ Hb), <-(text_len _ _ Hs) in *.
      destruct (str_insert_bytes_ok w v a b s Hr Hf) as (r&v'&w'&He&Hk&Hcap&Hc).
      exists xs, ys, r, v', w'. split; [done|]. split; [by apply text_len|]. split; [exact He|].
      split; [by eapply keeps_af|]. split; [done|]. destruct Hc as [(->&Hr')|(->&->&Hr'&?)].
      + left. split; [done|]. eexists. split; [|exact Hr']. apply text_app; [done|]. by apply text_app.
      + right. split; [done|]. split; [done|]. split; [|done]. eexists. split; [|exact Hr'].
        by apply text_app.
    - left. split; [|by rewrite bind_assert_false].
      intros Hb. apply (boundary_ok _ _ _ Ht) in Hb. congruence.
  Qed.

  Lemma str_insert_eq w v cs idx c : strep w v cs -> scalar c ->
    e_strict = false \/ ~ boundary cs idx ->
    str_insert idx c (v, w) = str_insert_str idx (encode_utf8 c) (v, w).
  Proof.
    intros (bs&Ht&Hr) Hs Hst. unfold str_insert, str_insert_str. rewrite !(bind_bytes _ _ _ _ Hr).
    destruct (is_char_boundary bs idx) eqn:E; [|done]. rewrite !bind_assert by done.
    apply (boundary_ok _ _ _ Ht) in E. destruct Hst as [Hst|]; [|done].
    unfold uninit_bits, assume. by rewrite Hst.
  Qed.
  Lemma str_insert_strict w v cs idx c : strep w v cs -> e_strict = true -> boundary cs idx ->
    str_insert idx c (v, w) = (UB UninitRead, (v, w)).
  Proof.
    intros (bs&Ht&Hr) Hst Hb. unfold str_insert. rewrite !(bind_bytes _ _ _ _ Hr).
    apply (boundary_ok _ _ _ Ht) in Hb. rewrite bind_assert by done.
    unfold uninit_bits, assume. by rewrite Hst.
  Qed.
End str.
