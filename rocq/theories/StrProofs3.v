(** Proofs about [String], continued: extending, collecting, UTF-16, comparing, copying. *)
From Verif Require Export StrProofs2 VecProofs7.
From Coq Require Import ZifyBool ZifyNat ZifyN.
Ltac Zify.zify_post_hook ::= idtac.

(** ** Order *)
Lemma cmp_app_same (a r r' : list N) :
  slice_cmp N.compare (a ++ r) (a ++ r') = slice_cmp N.compare r r'.
Proof. induction a as [|x a IH]; [done|]. simpl. by rewrite N.compare_refl. Qed.

Lemma cmp_flip (a b : list N) : slice_cmp N.compare b a = CompOpp (slice_cmp N.compare a b).
Proof.
  revert b. induction a as [|x a IH]; intros [|y b]; try done. simpl.
  rewrite (N.compare_antisym x y). destruct (x ?= y); simpl; auto.
Qed.

Lemma utf8_lt x y a b r r' : utf8 x a -> utf8 y b -> x < y ->
  slice_cmp N.compare (a ++ r) (b ++ r') = Lt.
Proof.
  intros Hx Hy Hlt. destruct Hx, Hy; simpl; unfold scalar in *.
  all: repeat match goal with
    | |- match ?p ?= ?q with _ => _ end = _ => destruct (N.compare_spec p q); try done
    end; exfalso; lia.
Qed.

Lemma text_cmp xs : forall ys a b, text xs a -> text ys b ->
  code_order xs ys (slice_cmp N.compare a b).
Proof.
  induction xs as [|x xs IH]; intros ys a b Ha Hb; inversion Ha as [|? ? a1 a2 Hx Hxs]; subst;
    inversion Hb as [|y ys' b1 b2 Hy Hys]; subst.
  - constructor.
  - destruct (utf8_bytes _ _ Hy) as (?&?&->&_). simpl. constructor.
  - destruct (utf8_bytes _ _ Hx) as (?&?&->&_). simpl. constructor.
  - destruct (N.lt_trichotomy x y) as [H|[->|H]].
    + rewrite (utf8_lt x y) by done. by constructor.
    + rewrite (utf8_fun _ _ _ Hx Hy), cmp_app_same. constructor. by apply IH.
    + rewrite cmp_flip, (utf8_lt y x) by done. by constructor.
Qed.

Lemma slice_eq_iff (a b : list N) : slice_eq N.eqb a b = true <-> a = b.
Proof.
  revert b. induction a as [|x a IH]; intros [|y b]; simpl; try (split; done).
  rewrite andb_true_iff, N.eqb_eq, IH. split; [by intros [-> ->]|by intros [= -> ->]].
Qed.
Lemma text_eq xs ys a b : text xs a -> text ys b -> slice_eq N.eqb a b = true <-> xs = ys.
Proof.
  intros Ha Hb. rewrite slice_eq_iff. split.
  - intros ->. by eapply text_inj.
  - intros ->. by eapply text_fun.
Qed.

Section str3.
  Context {EN : Env}.
  Local Existing Instance u8.
  Notation W := (world N).
  Notation MS := (M (vec * W)).
  Implicit Types (w : W) (v : vec) (bs : list N) (cs : list N).
  Hint Resolve z8 nd8 : core.

  Lemma strep_wok w v cs : strep w v cs -> wok w.
  Proof. intros (bs&_&Hr). by eapply rep_wok. Qed.
  Lemma strep_cap w v cs : strep w v cs -> tlen cs <= vcap v /\ vcap v <= isize_max.
  Proof. intros (bs&Ht&Hr). rewrite <-(text_len _ _ Ht). by eapply cap8. Qed.
  Lemma strep_scalars w v cs : strep w v cs -> Forall scalar cs.
  Proof. intros (bs&Ht&_). by eapply text_scalars. Qed.

  Lemma str_cmp_ok w v1 v2 xs ys : strep w v1 xs -> strep w v2 ys ->
    exists o, str_cmp v1 v2 w = (Ret o, w) /\ code_order xs ys o.
  Proof.
    intros (a&Ha&Hr1) (b&Hb&Hr2). exists (slice_cmp N.compare a b). split.
    - by apply (vec_cmp_ok z8). - by apply text_cmp.
  Qed.
  Lemma str_eq_ok w v1 v2 xs ys : strep w v1 xs -> strep w v2 ys ->
    exists b, str_eq v1 v2 w = (Ret b, w) /\ (b = true <-> xs = ys).
  Proof.
    intros (a&Ha&Hr1) (b&Hb&Hr2). exists (slice_eq N.eqb a b). split.
    - by apply (vec_eq_ok z8). - by apply text_eq.
  Qed.
  Lemma str_hash_ok {H} (hb : H -> N -> H) h w v cs : strep w v cs ->
    exists bs, text cs bs /\ str_hash hb h v w = (Ret (hb (fold_left hb bs h) 255), w).
  Proof.
    intros (bs&Ht&Hr). exists bs. split; [done|]. unfold str_hash.
    by erewrite bind_Ret by (by apply (as_slice_ok z8)).
  Qed.

  (** ** Copying and releasing *)
  Lemma str_clone_ok w v cs : strep w v cs ->
    exists r w', str_clone v w = (r, w') /\
      ((exists v', r = Ret v' /\ strep w' v' cs /\ strep w' v cs /\ apart v v' /\ born w v' w' []) \/
       (r = Panic PUnwrap /\ still w w' [] /\ refuses)).
  Proof.
    intros (bs&Ht&Hr). destruct (clone_ok z8 w v bs Hr nd8) as (r&w'&He&Hc).
    exists r, w'. split; [done|]. destruct Hc as [(v'&ys&->&Hm&Hr'&Hb)|[(l1&x&l2&ys&_&_&Hx&_)|?]]; [|done|by right].
    rewrite clone8 in Hm. injection Hm as <-. left. exists v'. split; [done|].
    destruct (born_other z8 w v bs v' w' [] bs Hr Hb Hr') as [Hr2 Ha].
    split; [by exists bs|]. split; [by exists bs|]. done.
  Qed.
  Lemma str_drop_ok w v cs : strep w v cs ->
    exists w' bs, vec_drop_val v w = (Ret tt, w') /\ gone v w w' bs.
  Proof.
    intros (bs&_&Hr). destruct (vec_drop_val_gone z8 w v bs Hr nd8) as (w'&He&Hg). eauto.
  Qed.
  Lemma strep_gone w v cs o w1 ds : strep w v cs -> apart v o -> gone o w w1 ds -> strep w1 v cs.
  Proof. intros (bs&Ht&Hr) Ha Hg. exists bs. split; [done|]. by eapply (gone_other z8). Qed.
  Lemma strep_frame w v w' v' o cs cs' : strep w o cs -> apart v o -> apart_from v w v' w' ->
    strep w' v' cs' -> strep w' o cs /\ apart v' o.
  Proof.
    intros (bs&Ht&Hr) Ha (ds&Hk) Hs.
    destruct (rep_frame z8 w v w' v' o bs ds Hr Ha Hk) as [Hr' Ha'].
    - by eapply strep_wok. - by destruct Hk as (_&_&_&?).
    - split; [|done]. by exists bs.
  Qed.

  (** ** Characters *)
  Lemma push_chars_ok it : forall w v cs, strep w v cs -> (forall c, Some c ∈ it -> scalar c) ->
    tlen cs + 4 * llen it <= isize_max ->
    exists r v' w', str_push_chars it (v, w) = (r, (v', w')) /\
      ((exists ds, strep w' v' (cs ++ ds) /\ apart_from v w v' w' /\
         vcap v <= vcap v' /\ vcap v' <= N.max (vcap v) (tlen cs + 4 * llen it) /\
         ((r = Ret tt /\ it = Some <$> ds) \/
          (r = Panic PUser /\ exists post, it = (Some <$> ds) ++ None :: post) \/
          (r = Panic PUnwrap /\ refuses /\ exists c post, it = (Some <$> ds) ++ Some c :: post))) \/
       (e_strict = true /\ r = UB UninitRead /\
        exists pre c post, it = (Some <$> pre) ++ Some c :: post /\ 128 <= c)).
  Proof.
    induction it as [|[c|] it IH]; intros w v cs Hs Hsc Hf; cbn [str_push_chars].
    - exists (Ret tt), v, w. split; [done|]. left. exists []. rewrite app_nil_r.
      split; [done|]. split; [apply af_refl|]. split; [lia|]. split; [lia|]. by left.
    - assert (scalar c) as Hc by (apply Hsc; left). pose proof (ulen_pos c). cbn [length] in Hf.
      destruct (N.lt_ge_cases c 128) as [Hlt|Hge]; [|destruct e_strict eqn:Est].
      2: { exists (UB UninitRead), v, w. split; [by erewrite bind_UB by (by apply str_push_strict)|].
           right. split; [done|]. split; [done|]. by exists [], c, it. }
      all: destruct (str_push_ok w v cs c Hs Hc) as (r1&v1&w1&He&Haf&Hc1&Hc2&Hcase); [lia|auto|].
      all: destruct Hcase as [(->&Hs1)|(->&->&Hs1&Hrf)];
        [|exists (Panic PUnwrap), v, w1; (split; [by erewrite bind_Panic by exact He|]); left;
          exists []; rewrite app_nil_r; (split; [done|]); (split; [done|]); (split; [lia|]);
          (split; [lia|]); right; right; (split; [done|]); (split; [done|]); by exists c, it].
      all: erewrite bind_Ret by exact He.
      all: destruct (IH w1 v1 (cs ++ [c]) Hs1) as (r&v2&w2&He2&Hcase);
        [by intros d Hd; apply Hsc; right|rewrite tlen_app; simpl; lia|].
      all: exists r, v2, w2; split; [exact He2|].
      all: destruct Hcase as [(ds&Hs2&Haf2&Hc3&Hc4&Hcase)|(Hst&->&pre&d&post&->&Hd)];
        [left|right; split; [done|]; split; [done|]; by exists (c :: pre), d, post].
      all: exists (c :: ds); rewrite <-app_assoc in Hs2; split; [done|];
        split; [by eapply af_trans|]; rewrite tlen_app in Hc4; simpl in Hc4; cbn [length];
        split; [lia|]; split; [lia|].
      all: destruct Hcase as [(->&->)|[(->&post&->)|(->&Hrf&d&post&->)]];
        [by left|right; left; split; [done|]; by exists post|right; right; split; [done|]; split; [done|]; by exists d, post].
    - exists (Panic PUser), v, w. split; [done|]. left. exists []. rewrite app_nil_r.
      split; [done|]. split; [apply af_refl|]. split; [lia|]. split; [lia|]. right. left.
      split; [done|]. by exists it.
  Qed.

  (** ** Slices of text *)
  Lemma extend_strs_ok it : forall w v cs, strep w v cs ->
    (forall ds, Some ds ∈ it -> Forall scalar ds) ->
    tlen cs + foldr (fun o n => from_option tlen 0 o + n) 0 it <= isize_max ->
    exists r v' w' dss, str_extend_strs (option_map encode_all <$> it) (v, w) = (r, (v', w')) /\
      strep w' v' (cs ++ concat dss) /\ apart_from v w v' w' /\ vcap v <= vcap v' /\
      vcap v' <= N.max (vcap v) (tlen cs + foldr (fun o n => from_option tlen 0 o + n) 0 it) /\
      ((r = Ret tt /\ it = Some <$> dss) \/
       (r = Panic PUser /\ exists post, it = (Some <$> dss) ++ None :: post) \/
       (r = Panic PUnwrap /\ refuses /\ exists ds post, it = (Some <$> dss) ++ Some ds :: post)).
  Proof.
    induction it as [|[ds|] it IH]; intros w v cs Hs Hsc Hf; simpl in *.
    - exists (Ret tt), v, w, []. split; [done|]. rewrite app_nil_r.
      split; [done|]. split; [apply af_refl|]. split; [lia|]. split; [lia|]. by left.
    - assert (Forall scalar ds) as Hd by (apply Hsc; left).
      destruct (str_push_str_ok w v cs ds (encode_all ds) Hs) as (r1&v1&w1&He&Haf&Hc1&Hc2&Hcase).
      { by apply text_encode. } { lia. }
      destruct Hcase as [(->&Hs1)|(->&->&Hs1&Hrf)].
      + erewrite bind_Ret by exact He.
        destruct (IH w1 v1 (cs ++ ds) Hs1) as (r&v2&w2&dss&He2&Hs2&Haf2&Hc3&Hc4&Hcase).
        { intros e He'. apply Hsc. by right. } { rewrite tlen_app. lia. }
        exists r, v2, w2, (ds :: dss). split; [exact He2|]. simpl. rewrite <-app_assoc in Hs2.
        split; [done|]. split; [by eapply af_trans|]. rewrite tlen_app in Hc4.
        split; [lia|]. split; [lia|].
        destruct Hcase as [(->&->)|[(->&post&->)|(->&Hrf&d&post&->)]];
        [by left|right; left; split; [done|]; by exists post|right; right; split; [done|]; split; [done|]; by exists d, post].
      + exists (Panic PUnwrap), v, w1, []. split; [by erewrite bind_Panic by exact He|].
        rewrite app_nil_r. split; [done|]. split; [done|]. split; [lia|]. split; [lia|].
        right. right. split; [done|]. split; [done|]. by exists ds, it.
    - exists (Panic PUser), v, w, []. split; [done|]. rewrite app_nil_r.
      split; [done|]. split; [apply af_refl|]. split; [lia|]. split; [lia|].
      right. left. split; [done|]. by exists it.
  Qed.

  (** ** Strings made on demand *)
  Lemma str_build_ok w ds : wok w -> Forall scalar ds -> tlen ds <= isize_max ->
    exists r w', str_build (encode_all ds) w = (r, w') /\
      ((exists s, r = Ret s /\ strep w' s ds /\ (exists l, born w s w' l) /\ vcap s <= tlen ds) \/
       (r = Panic PUnwrap /\ (exists l, still w w' l) /\ refuses)).
  Proof.
    intros Hw Hd Hf. unfold str_build, str_new.
    destruct (new_born z8 w Hw) as (n&w1&Hn&Hr1&Hb1&Hdg&Hc0). erewrite bind_Ret by exact Hn.
    assert (strep w1 n []) as Hs1 by (exists []; split; [constructor|done]).
    destruct (str_push_str_ok w1 n [] ds (encode_all ds) Hs1) as (r&v'&w'&He&(l&Hk)&Hc1&Hc2&Hcase).
    { by apply text_encode. } { simpl. lia. }
    destruct Hcase as [(->&Hs')|(->&->&Hs'&Hrf)].
    - erewrite bind_Ret by (by apply with_local_Ret). eexists _, _. split; [reflexivity|]. left.
      exists v'. split; [done|]. split; [done|]. split.
      + eexists. eapply (born_keeps z8); [exact Hb1|exact Hk|by eapply strep_wok].
      + simpl in Hc2. lia.
    - destruct Hs' as (bs'&_&Hr'). destruct (vec_drop_gone z8 w' n bs' Hr' nd8) as (w2&Hd2&Hg).
      erewrite bind_Panic.
      2: { eapply with_local_Panic; [exact He|]. unfold vec_drop_val in *. exact Hd2. }
      eexists _, _. split; [reflexivity|]. right. split; [done|]. split; [|done].
      eexists. eapply (born_gone z8); [exact Hb1|]. by eapply (keeps_gone z8).
  Qed.

  (** ** UTF-16 *)
  Lemma push_decoded_ok ds : forall tl w v cs, strep w v cs -> Forall scalar ds ->
    tlen cs + tlen ds <= isize_max ->
    (tl = [] \/ exists post, tl = None :: post) ->
    exists r v' w', push_decoded ((Some <$> ds) ++ tl) (v, w) = (r, (v', w')) /\
      ((apart_from v w v' w' /\
        ((r = Ret (bool_decide (tl = [])) /\ strep w' v' (cs ++ ds)) \/
         (r = Panic PUnwrap /\ refuses /\ exists ds', strep w' v' ds'))) \/
       (e_strict = true /\ r = UB UninitRead /\ exists pre c post, ds = pre ++ c :: post /\ 128 <= c)).
  Proof.
    induction ds as [|c ds IH]; intros tl w v cs Hs Hsc Hf Htl; simpl in *.
    - rewrite app_nil_r. destruct Htl as [->|[post ->]]; simpl.
      + exists (Ret true), v, w. split; [done|]. left. split; [apply af_refl|]. by left.
      + exists (Ret false), v, w. split; [done|]. left. split; [apply af_refl|]. by left.
    - apply Forall_cons in Hsc as [Hc Hsc].
      destruct (N.lt_ge_cases c 128) as [Hlt|Hge]; [|destruct e_strict eqn:Est].
      2: { exists (UB UninitRead), v, w. split; [by erewrite bind_UB by (by apply str_push_strict)|].
           right. split; [done|]. split; [done|]. by exists [], c, ds. }
      all: destruct (str_push_ok w v cs c Hs Hc) as (r1&v1&w1&He&Haf&Hc1&Hc2&Hcase); [lia|auto|].
      all: destruct Hcase as [(->&Hs1)|(->&->&Hs1&Hrf)].
      1,3: erewrite bind_Ret by exact He;
        destruct (IH tl w1 v1 (cs ++ [c]) Hs1 Hsc) as (r&v2&w2&He2&Hcase); try done;
        [rewrite tlen_app; simpl; lia|];
        exists r, v2, w2; (split; [exact He2|]);
        (destruct Hcase as [(Haf2&Hcase)|(?&->&pre&c'&post&->&Hc')];
         [left; (split; [by eapply af_trans|]); rewrite <-app_assoc in Hcase; exact Hcase
         |right; (split; [done|]); (split; [done|]); by exists (c :: pre), c', post]).
      all: exists (Panic PUnwrap), v, w1; (split; [by erewrite bind_Panic by exact He|]); left;
        (split; [done|]); right; (split; [done|]); (split; [done|]); by exists cs.
  Qed.

  Lemma str_from_utf16_ok w us : wok w -> Forall (fun u => u < 65536) us ->
    4 * llen us <= isize_max ->
    exists r w', str_from_utf16 us w = (r, w') /\
      ((exists cs v, text16 cs us /\ r = Ret (Some v) /\ strep w' v cs /\ exists l, born w v w' l) \/
       ((~ exists cs, text16 cs us) /\ r = Ret None /\ exists l, still w w' l) \/
       (r = Panic PUnwrap /\ refuses /\ exists l, still w w' l) \/
       (e_strict = true /\ r = UB UninitRead /\ exists u, u ∈ us /\ 128 <= u)).
  Proof.
    intros Hw Hus Hf. unfold str_from_utf16, str_with_capacity.
    destruct (with_capacity_ok z8 w (llen us) Hw) as (r&w1&He&Hd1&Hcu1&Hn1&Hw1&Hcase).
    { apply fits8. lia. }
    destruct Hcase as [(v&->&Hr1&Hv1&_)|(->&Hh&Hrf)]; cycle 1.
    { erewrite bind_Panic by exact He. eexists _, _. split; [reflexivity|]. right. right. left.
      split; [done|]. split; [done|]. exists []. unfold still. rewrite app_nil_r.
      split; [done|]. split; [done|]. split; [done|]. split; done. }
    erewrite bind_Ret by exact He.
    assert (born w v w1 []) as Hb1.
    { unfold born. rewrite app_nil_r. split; [done|]. split; [done|]. split; [done|]. split; done. }
    assert (strep w1 v []) as Hs1 by (exists []; split; [constructor|done]).
    assert (Hmain : forall ds tl, decode_utf16 us = (Some <$> ds) ++ tl -> Forall scalar ds ->
      tlen ds <= isize_max -> (tl = [] \/ tl = [None]) ->
      exists r w', (r <- with_local v (push_decoded (decode_utf16 us)) vec_drop;
        (if fst r then ret (Some (snd r)) else vec_drop_val (snd r) ;; ret None)) w1 = (r, w') /\
      ((tl = [] /\ exists v, r = Ret (Some v) /\ strep w' v ds /\ exists l, born w v w' l) \/
       (tl = [None] /\ r = Ret None /\ exists l, still w w' l) \/
       (r = Panic PUnwrap /\ refuses /\ exists l, still w w' l) \/
       (e_strict = true /\ r = UB UninitRead /\ exists pre c post, ds = pre ++ c :: post /\ 128 <= c))).
    { intros ds tl Hdec Hsc Hlen Htl. rewrite Hdec.
      destruct (push_decoded_ok ds tl w1 v [] Hs1 Hsc) as (r&v2&w2&He2&Hcase); try done.
      { destruct Htl as [->| ->]; [by left|right; by exists []]. }
      destruct Hcase as [((l&Hk)&Hcase)|(?&->&?)]; cycle 1.
      { erewrite bind_UB; [eexists _, _; split; [reflexivity|]; right; right; right; done|].
        unfold with_local, on_unwind. rewrite He2. reflexivity. }
      destruct Hcase as [(->&Hs2)|(->&Hrf&ds'&Hs2)].
      - erewrite bind_Ret by (by apply with_local_Ret). simpl in Hs2. simpl.
        assert (born w v2 w2 ([] ++ l)) as Hb2.
        { eapply (born_keeps z8); [exact Hb1|exact Hk|by eapply strep_wok]. }
        destruct Htl as [->| ->]; simpl.
        + eexists _, _. split; [reflexivity|]. left. split; [done|]. exists v2. eauto.
        + destruct (str_drop_ok w2 v2 ds Hs2) as (w3&b&He3&Hg). erewrite bind_Ret by exact He3.
          eexists _, _. split; [reflexivity|]. right. left. split; [done|]. split; [done|].
          eexists. by eapply (born_gone z8).
      - destruct Hs2 as (b&_&Hr2). destruct (vec_drop_gone z8 w2 v2 b Hr2 nd8) as (w3&Hd3&Hg).
        erewrite bind_Panic.
        2: { eapply with_local_Panic; [exact He2|exact Hd3]. }
        eexists _, _. split; [reflexivity|]. right. right. left. split; [done|]. split; [done|].
        eexists. eapply (born_gone z8); [exact Hb1|]. by eapply (keeps_gone z8). }
    assert (Hbig : forall ds tl, decode_utf16 us = (Some <$> ds) ++ tl ->
      forall pre c post, ds = pre ++ c :: post -> 128 <= c -> exists u, u ∈ us /\ 128 <= u).
    { intros ds tl Hdec pre c post -> Hc.
      assert (Some c ∈ decode_utf16 us) as Hin.
      { rewrite Hdec. set_solver. }
      clear -Hin Hc Hus. revert Hin.
      assert (forall n us, (length us <= n)%nat -> Forall (fun u => u < 65536) us -> Some c ∈ decode_utf16 us -> exists u, u ∈ us /\ 128 <= u) as H.
      2: { by apply (H (length us)). }
      clear us Hus. induction n as [|n IH]; intros [|u r] Hn Hus Hin; simpl in *; try (by inversion Hin); try lia.
      apply Forall_cons in Hus as [Hu Hus]. rewrite surrogate_mask in Hin by done.
      destruct (in_range 55296 57343 u) eqn:E; simpl in Hin; cycle 1.
      - apply elem_of_cons in Hin as [Hin|Hin].
        + injection Hin as ->. exists u. split; [left|lia].
        + destruct (IH r) as (u'&?&?); [lia|done|done|]. exists u'. split; [by right|done].
      - exists u. split; [left|]. unfold in_range in E. lia. }
    destruct (decode_utf16_sound us Hus) as (cs&[(Hdec&Ht)|(Hdec&Hsc&Hno)]).
    - destruct (Hmain cs []) as (r&w'&Hrun&Hcase).
      { by rewrite app_nil_r. } { by eapply text16_scalars. }
      { pose proof (tlen_bound cs). pose proof (text16_len _ _ Ht). lia. } { by left. }
      exists r, w'. split; [exact Hrun|]. destruct Hcase as [(_&v'&?)|[(?&_)|[?|(?&->&pre&c&post&?&?)]]];
        [left; eauto|done|by right; right; left|].
      right. right. right. split; [done|]. split; [done|]. eapply (Hbig cs []); [by rewrite app_nil_r|done|done].
    - destruct (Hmain cs [None]) as (r&w'&Hrun&Hcase); [done|done| |by right|].
      { assert (llen (decode_utf16 us) <= llen us) as Hl.
        { clear. assert (forall n us, (length us <= n)%nat -> (length (decode_utf16 us) <= length us)%nat) as H.
          2: { specialize (H (length us) us). lia. }
          induction n as [|n IH]; intros [|u r] Hn; simpl in *; try lia.
          destruct (negb _); simpl; [specialize (IH r); lia|].
          destruct (56320 <=? u); simpl; [lia|].
          destruct r as [|u2 r']; simpl; [lia|]. destruct (_ || _); simpl; [lia|].
          simpl in Hn. specialize (IH r'). lia. }
        pose proof (tlen_bound cs). rewrite Hdec, app_length, fmap_length in Hl. simpl in Hl. lia. }
      exists r, w'. split; [exact Hrun|]. destruct Hcase as [(?&_)|[(_&?)|[?|(?&->&pre&c&post&?&?)]]];
        [done|right; left; done|by right; right; left|].
      right. right. right. split; [done|]. split; [done|]. by eapply (Hbig cs [None]).
  Qed.
End str3.
