(** The model of [core]'s UTF-8 and UTF-16 functions meets the Unicode definitions. *)
From Verif Require Export UtfModel SpecUtf.
From Coq Require Import ZifyBool ZifyNat ZifyN.
Ltac Zify.zify_post_hook ::= Z.div_mod_to_equations.

(** ** Bits as arithmetic *)
Lemma land_mask x m n : m = N.ones n -> N.land x m = x mod 2 ^ n.
Proof. intros ->. apply N.land_ones. Qed.
Lemma lor_hi n a b : b < 2 ^ n -> N.lor (a * 2 ^ n) b = a * 2 ^ n + b.
Proof.
  intros Hb. assert (N.land (a * 2 ^ n) b = 0) as H0.
  { apply N.bits_inj_0. intros k. rewrite N.land_spec.
    destruct (N.lt_ge_cases k n) as [Hk|Hk]; [by rewrite N.mul_pow2_bits_low|].
    destruct (N.eq_dec b 0) as [->|Hb0]; [by rewrite N.bits_0, andb_false_r|].
    rewrite (N.bits_above_log2 b), andb_false_r; [done|].
    apply N.log2_lt_pow2 in Hb; lia. }
  rewrite <-N.lxor_lor by done. by rewrite <-N.add_nocarry_lxor.
Qed.
Lemma lor_lo n a b : b < 2 ^ n -> N.lor b (a * 2 ^ n) = a * 2 ^ n + b.
Proof. intros. rewrite N.lor_comm. by apply lor_hi. Qed.

Lemma land63 x : N.land x 63 = x mod 64. Proof. by apply (land_mask x 63 6). Qed.
Lemma land31 x : N.land x 31 = x mod 32. Proof. by apply (land_mask x 31 5). Qed.
Lemma land15 x : N.land x 15 = x mod 16. Proof. by apply (land_mask x 15 4). Qed.
Lemma land7 x : N.land x 7 = x mod 8. Proof. by apply (land_mask x 7 3). Qed.
Lemma land1023 x : N.land x 1023 = x mod 1024. Proof. by apply (land_mask x 1023 10). Qed.
Lemma shr6 x : N.shiftr x 6 = x / 64. Proof. by rewrite N.shiftr_div_pow2. Qed.
Lemma shr12 x : N.shiftr x 12 = x / 4096. Proof. by rewrite N.shiftr_div_pow2. Qed.
Lemma shr18 x : N.shiftr x 18 = x / 262144. Proof. by rewrite N.shiftr_div_pow2. Qed.
Lemma shl6 x : N.shiftl x 6 = x * 64. Proof. by rewrite N.shiftl_mul_pow2. Qed.
Lemma shl10 x : N.shiftl x 10 = x * 1024. Proof. by rewrite N.shiftl_mul_pow2. Qed.
Lemma shl12 x : N.shiftl x 12 = x * 4096. Proof. by rewrite N.shiftl_mul_pow2. Qed.
Lemma shl18 x : N.shiftl x 18 = x * 262144. Proof. by rewrite N.shiftl_mul_pow2. Qed.
Lemma lor128 x : x < 64 -> N.lor x 128 = 128 + x. Proof. intros. apply (lor_lo 6 2); done. Qed.
Lemma lor192 x : x < 32 -> N.lor x 192 = 192 + x. Proof. intros. apply (lor_lo 5 6); done. Qed.
Lemma lor224 x : x < 16 -> N.lor x 224 = 224 + x. Proof. intros. apply (lor_lo 4 14); done. Qed.
Lemma lor240 x : x < 8 -> N.lor x 240 = 240 + x. Proof. intros. apply (lor_lo 3 30); done. Qed.
Lemma lor_6 a b : b < 64 -> N.lor (a * 64) b = a * 64 + b. Proof. apply (lor_hi 6). Qed.
Lemma lor_10 a b : b < 1024 -> N.lor (a * 1024) b = a * 1024 + b. Proof. apply (lor_hi 10). Qed.
Lemma lor_12 a b : b < 4096 -> N.lor (a * 4096) b = a * 4096 + b. Proof. apply (lor_hi 12). Qed.
Lemma lor_18 a b : b < 262144 -> N.lor (a * 262144) b = a * 262144 + b. Proof. apply (lor_hi 18). Qed.

Ltac bits := rewrite ?land63, ?land31, ?land15, ?land7, ?land1023, ?shr6, ?shr12, ?shr18, ?shl6,
  ?shl10, ?shl12, ?shl18 in *.

Ltac cons_lia := repeat match goal with |- _ :: _ = _ :: _ => f_equal end; lia.

(** ** One character *)
Lemma is_char_scalar c : is_char c = true <-> scalar c.
Proof. unfold is_char, scalar. lia. Qed.
Lemma decoded_scalar c : scalar c -> decoded_char c = DChar c.
Proof. intros H. unfold decoded_char. by rewrite (proj2 (is_char_scalar c)). Qed.

Lemma utf8_scalar c bs : utf8 c bs -> scalar c.
Proof. destruct 1; unfold scalar in *; lia. Qed.
Lemma utf8_len c bs : utf8 c bs -> llen bs = ulen c.
Proof. destruct 1; unfold ulen, scalar in *; simpl length; repeat case_match; lia. Qed.
Lemma len_ulen c : len_utf8 c = ulen c.
Proof. done. Qed.
Lemma ulen_pos c : 1 <= ulen c /\ ulen c <= 4.
Proof. unfold ulen. repeat case_match; lia. Qed.

Lemma utf8_encode c bs : utf8 c bs -> encode_utf8 c = bs.
Proof.
  destruct 1; unfold encode_utf8; cbv zeta; bits; unfold scalar in *.
  - by destruct (N.ltb_spec a 128); [|lia].
  - destruct (N.ltb_spec (a * 64 + b) 128); [lia|].
    destruct (N.ltb_spec (a * 64 + b) 2048); [|lia].
    rewrite lor192, lor128 by lia. cons_lia.
  - destruct (N.ltb_spec n 128); [lia|]. destruct (N.ltb_spec n 2048); [lia|].
    destruct (N.ltb_spec n 65536); [|lia].
    rewrite lor224, !lor128 by lia. cons_lia.
  - destruct (N.ltb_spec n 128); [lia|]. destruct (N.ltb_spec n 2048); [lia|].
    destruct (N.ltb_spec n 65536); [lia|].
    rewrite lor240, !lor128 by lia. cons_lia.
Qed.
Lemma encode_utf8_ok c : scalar c -> utf8 c (encode_utf8 c).
Proof.
  intros Hs. unfold encode_utf8; cbv zeta. bits.
  destruct (N.ltb_spec c 128); [by constructor|].
  destruct (N.ltb_spec c 2048).
  { rewrite lor192, lor128 by lia. replace c with (c / 64 * 64 + c mod 64) at 1 by lia.
    replace ((c / 64) mod 32) with (c / 64) by lia. constructor; lia. }
  destruct (N.ltb_spec c 65536).
  { rewrite lor224, !lor128 by lia. constructor; try done; lia. }
  rewrite lor240, !lor128 by lia. unfold scalar in *. constructor; unfold scalar; lia.
Qed.
Lemma utf8_fun c bs bs' : utf8 c bs -> utf8 c bs' -> bs = bs'.
Proof. intros H1%utf8_encode H2%utf8_encode. congruence. Qed.

(** First byte and following bytes. *)
Lemma utf8_bytes c bs : utf8 c bs ->
  exists b tl, bs = b :: tl /\ is_cont b = false /\ Forall (fun x => is_cont x = true) tl.
Proof.
  destruct 1; eexists _, _; (split; [reflexivity|]); unfold is_cont.
  all: split; [lia|]; repeat constructor; lia.
Qed.
Lemma utf8_byte_range c bs : utf8 c bs -> Forall (fun x => x < 256) bs.
Proof. destruct 1; repeat constructor; lia. Qed.

Lemma next_utf8 c bs rest : utf8 c bs -> next_code_point (bs ++ rest) = DChar c.
Proof.
  intros H. pose proof (utf8_scalar _ _ H) as Hs. apply decoded_scalar in Hs as Hd.
  destruct H; simpl; bits.
  - by destruct (N.ltb_spec a 128); [|lia].
  - destruct (N.ltb_spec (192 + a) 128); [lia|]. destruct (N.ltb_spec (192 + a) 224); [|lia].
    rewrite lor_6 by lia. rewrite <-Hd. f_equal. lia.
  - destruct (N.ltb_spec (224 + a) 128); [lia|]. destruct (N.ltb_spec (224 + a) 224); [lia|].
    destruct (N.ltb_spec (224 + a) 240); [|lia].
    rewrite (lor_6 ((128 + b) mod 64)) by lia. rewrite lor_12 by lia. rewrite <-Hd. f_equal. lia.
  - destruct (N.ltb_spec (240 + a) 128); [lia|]. destruct (N.ltb_spec (240 + a) 224); [lia|].
    destruct (N.ltb_spec (240 + a) 240); [lia|].
    rewrite (lor_6 ((128 + b) mod 64)) by lia. rewrite lor_6 by lia. rewrite lor_18 by lia.
    rewrite <-Hd. f_equal. lia.
Qed.

Lemma next_back_utf8 c bs rest :
  utf8 c bs -> next_code_point_reverse (rev bs ++ rest) = DChar c.
Proof.
  intros H. pose proof (utf8_scalar _ _ H) as Hs. apply decoded_scalar in Hs as Hd.
  destruct H; simpl; bits; unfold is_cont.
  - by destruct (N.ltb_spec a 128); [|lia].
  - destruct (N.ltb_spec (128 + b) 128); [lia|].
    replace ((128 <=? 192 + a) && (192 + a <? 192)) with false by lia. cbn iota.
    rewrite lor_6 by lia. rewrite <-Hd. simpl. f_equal. lia.
  - destruct (N.ltb_spec (128 + c) 128); [lia|].
    replace ((128 <=? 128 + b) && (128 + b <? 192)) with true by lia. simpl.
    replace ((128 <=? 224 + a) && (224 + a <? 192)) with false by lia. simpl.
    rewrite (lor_6 ((224 + a) mod 16)) by lia. rewrite lor_6 by lia. rewrite <-Hd. f_equal. lia.
  - destruct (N.ltb_spec (128 + d) 128); [lia|].
    replace ((128 <=? 128 + c) && (128 + c <? 192)) with true by lia. simpl.
    replace ((128 <=? 128 + b) && (128 + b <? 192)) with true by lia. simpl.
    rewrite (lor_6 ((240 + a) mod 8)) by lia. rewrite (lor_6 (_ + _)) by lia. rewrite lor_6 by lia.
    rewrite <-Hd. f_equal. lia.
Qed.

(** ** Texts *)
Lemma text_len cs bs : text cs bs -> llen bs = tlen cs.
Proof.
  induction 1 as [|c cs bs bss H _ IH]; simpl; [done|].
  apply utf8_len in H. rewrite app_length. lia.
Qed.
Lemma tlen_app xs ys : tlen (xs ++ ys) = tlen xs + tlen ys.
Proof. induction xs as [|x xs IH]; simpl; [lia|]. rewrite IH. lia. Qed.
Lemma tlen_bound cs : tlen cs <= 4 * llen cs.
Proof. induction cs as [|c cs IH]; simpl; [lia|]. pose proof (ulen_pos c). lia. Qed.
Lemma tlen_ge cs : llen cs <= tlen cs.
Proof. induction cs as [|c cs IH]; simpl; [lia|]. pose proof (ulen_pos c). lia. Qed.
Lemma text_app xs ys a b : text xs a -> text ys b -> text (xs ++ ys) (a ++ b).
Proof.
  induction 1; intros Hb; simpl; [done|]. rewrite <-app_assoc. constructor; auto.
Qed.
Lemma text_one c bs : utf8 c bs -> text [c] bs.
Proof. intros H. rewrite <-(app_nil_r bs). repeat constructor. done. Qed.
Lemma text_app_inv xs : forall ys bs, text (xs ++ ys) bs ->
  exists a b, bs = a ++ b /\ text xs a /\ text ys b.
Proof.
  induction xs as [|x xs IH]; simpl; intros ys bs H.
  { exists [], bs. repeat split; [constructor|done]. }
  inversion H as [|c cs b1 bss Hu Ht]; subst. destruct (IH _ _ Ht) as (a&b&->&Ha&Hb).
  exists (b1 ++ a), b. rewrite app_assoc. repeat split; [by constructor|done].
Qed.
Lemma text_scalars cs bs : text cs bs -> Forall scalar cs.
Proof. induction 1; constructor; [by eapply utf8_scalar|done]. Qed.
Lemma text_encode cs : Forall scalar cs -> text cs (encode_all cs).
Proof.
  induction 1; unfold encode_all; simpl; constructor; [by apply encode_utf8_ok|done].
Qed.
Lemma text_fun cs : forall bs bs', text cs bs -> text cs bs' -> bs = bs'.
Proof.
  induction cs as [|c cs IH]; intros bs bs' H H'; inversion H; inversion H'; subst; [done|].
  f_equal; [by eapply utf8_fun|auto].
Qed.
Lemma encode_all_text cs bs : text cs bs -> encode_all cs = bs.
Proof. intros H. eapply text_fun; [|exact H]. by apply text_encode, (text_scalars _ bs). Qed.
Lemma text_next c cs bs : text (c :: cs) bs -> next_code_point bs = DChar c.
Proof. intros H. inversion H; subst. by apply next_utf8. Qed.
Lemma text_inj bs : forall cs cs', text cs bs -> text cs' bs -> cs = cs'.
Proof.
  assert (forall n cs cs' bs, length bs = n -> text cs bs -> text cs' bs -> cs = cs') as Hn.
  2: { intros. eauto. }
  induction n as [n IH] using lt_wf_ind. intros cs cs' b Hl H H'.
  inversion H as [|c cs1 b1 bss Hu Ht]; subst; inversion H' as [|c' cs2 b2 bss' Hu' Ht' E1 E2]; subst.
  - done.
  - apply utf8_bytes in Hu' as (?&?&->&_). done.
  - apply utf8_bytes in Hu as (?&?&->&_). done.
  - assert (c = c') as ->.
    { pose proof (next_utf8 _ _ bss Hu) as Ha. rewrite <-E2 in Ha.
      rewrite (next_utf8 _ _ bss' Hu') in Ha. congruence. }
    assert (b1 = b2) as -> by (by eapply utf8_fun). apply app_inv_head in E2 as ->.
    f_equal. eapply IH; [|reflexivity|done|done]. apply utf8_bytes in Hu as (?&?&->&_).
    rewrite app_length. simpl. lia.
Qed.
Lemma text_snoc_back cs c bs : text (cs ++ [c]) bs -> next_code_point_reverse (rev bs) = DChar c.
Proof.
  intros H. apply text_app_inv in H as (a&b&->&_&Hb). inversion Hb as [|? ? ? ? Hu Ht]; subst.
  inversion Ht; subst. rewrite rev_app_distr, app_nil_r. by apply next_back_utf8.
Qed.
Lemma text_nil_inv bs : text [] bs -> bs = [].
Proof. by inversion 1. Qed.
Lemma text_empty cs : text cs [] -> cs = [].
Proof. intros H. apply (text_inj [] cs []); [done|constructor]. Qed.

(** ** Boundaries *)
Lemma boundary_0 cs : boundary cs 0.
Proof. by exists [], cs. Qed.
Lemma boundary_end cs : boundary cs (tlen cs).
Proof. exists cs, []. by rewrite app_nil_r. Qed.
Lemma boundary_cons c cs i : boundary (c :: cs) i <-> i = 0 \/ (ulen c <= i /\ boundary cs (i - ulen c)).
Proof.
  split.
  - intros (xs&ys&He&->). destruct xs as [|x xs]; [by left|]. right. simpl in *.
    injection He as -> ->. split; [lia|]. exists xs, ys. split; [done|lia].
  - intros [->|(Hl&xs&ys&->&Hi)]; [apply boundary_0|]. exists (c :: xs), ys. simpl. split; [done|lia].
Qed.
Lemma boundary_ok cs bs i : text cs bs -> is_char_boundary bs i = true <-> boundary cs i.
Proof.
  assert (Hb : forall cs bs, text cs bs -> forall i, i < llen bs ->
    (exists b, bs !! N.to_nat i = Some b /\ is_cont b = false) <-> boundary cs i).
  { clear. induction 1 as [|c cs b1 bss Hu Ht IH]; intros i Hi; [simpl in *; lia|].
    rewrite boundary_cons. pose proof (utf8_len _ _ Hu) as Hlen. rewrite app_length in Hi.
    destruct (N.lt_ge_cases i (llen b1)) as [Hlt|Hge].
    - rewrite lookup_app_l by lia. destruct (utf8_bytes _ _ Hu) as (b&tl&->&Hb&Htl).
      destruct (N.eq_dec i 0) as [->|Hi0].
      + split; [by left|]. intros _. by exists b.
      + split; [|lia]. intros (x&Hx&Hxc). exfalso.
        destruct (N.to_nat i) as [|k] eqn:Ek; [lia|]. simpl in Hx.
        eapply Forall_lookup_1 in Htl; [|exact Hx]. simpl in Htl. congruence.
    - rewrite lookup_app_r by lia. rewrite <-Hlen.
      replace (N.to_nat i - length b1)%nat with (N.to_nat (i - llen b1)) by lia.
      rewrite IH by lia. destruct (utf8_bytes _ _ Hu) as (b&tl&->&_). simpl in *.
      split; [intros; right; split; [lia|done]|]. intros [->|[_ ?]]; [lia|done]. }
  intros Ht. unfold is_char_boundary. pose proof (text_len _ _ Ht) as Hlen.
  destruct (N.eqb_spec i 0) as [->|H0]; [split; [intros; apply boundary_0|done]|].
  destruct (N.leb_spec (llen bs) i) as [Hge|Hlt].
  - split.
    + intros He%N.eqb_eq. rewrite He, Hlen. apply boundary_end.
    + intros (xs&ys&->&->). rewrite tlen_app in *. lia.
  - rewrite <-(Hb _ _ Ht) by done. destruct (bs !! N.to_nat i) as [b|] eqn:E.
    + split; [intros; exists b; split; [done|by destruct (is_cont b)]|].
      intros (x&[= ->]&->). done.
    + apply lookup_ge_None in E. lia.
Qed.
Lemma boundary_dec cs bs i : text cs bs -> {boundary cs i} + {~ boundary cs i}.
Proof.
  intros Ht. destruct (is_char_boundary bs i) eqn:E.
  - left. by eapply boundary_ok.
  - right. intros H. apply (boundary_ok _ _ _ Ht) in H. congruence.
Qed.
(** Splitting a text at a byte index that is a boundary. *)
Lemma text_split cs bs i : text cs bs -> boundary cs i ->
  exists xs ys, cs = xs ++ ys /\ i = tlen xs /\
    text xs (take (N.to_nat i) bs) /\ text ys (drop (N.to_nat i) bs).
Proof.
  intros Ht (xs&ys&->&->). destruct (text_app_inv _ _ _ Ht) as (a&b&->&Ha&Hb).
  exists xs, ys. split; [done|]. split; [done|]. rewrite <-(text_len _ _ Ha).
  replace (N.to_nat (llen a)) with (length a) by lia. by rewrite take_app, drop_app.
Qed.

(** ** Validation *)
Lemma utf8_valid_app c bs rest : utf8 c bs -> utf8_valid (bs ++ rest) = utf8_valid rest.
Proof.
  destruct 1; simpl; unfold in_range, is_cont, scalar in *.
  - by destruct (N.ltb_spec a 128); [|lia].
  - destruct (N.ltb_spec (192 + a) 128); [lia|].
    replace ((194 <=? 192 + a) && (192 + a <=? 223)) with true by lia.
    replace ((128 <=? 128 + b) && (128 + b <? 192)) with true by lia. done.
  - destruct (N.ltb_spec (224 + a) 128); [lia|].
    replace ((194 <=? 224 + a) && (224 + a <=? 223)) with false by lia.
    replace ((224 <=? 224 + a) && (224 + a <=? 239)) with true by lia.
    replace ((128 <=? 128 + c) && (128 + c <? 192)) with true by lia. rewrite andb_true_r.
    match goal with |- ?x && _ = _ => replace x with true; [done|] end. lia.
  - destruct (N.ltb_spec (240 + a) 128); [lia|].
    replace ((194 <=? 240 + a) && (240 + a <=? 223)) with false by lia.
    replace ((224 <=? 240 + a) && (240 + a <=? 239)) with false by lia.
    replace ((240 <=? 240 + a) && (240 + a <=? 244)) with true by lia.
    replace ((128 <=? 128 + c) && (128 + c <? 192)) with true by lia.
    replace ((128 <=? 128 + d) && (128 + d <? 192)) with true by lia. rewrite !andb_true_r.
    match goal with |- ?x && _ = _ => replace x with true; [done|] end. lia.
Qed.
Lemma wellformed_cons c bs rest : utf8 c bs -> wellformed rest -> wellformed (bs ++ rest).
Proof. intros Hu [cs Ht]. exists (c :: cs). by constructor. Qed.

Lemma off n x : n <= x -> exists a, x = n + a.
Proof. exists (x - n). lia. Qed.

Lemma utf8_valid_sound bs : utf8_valid bs = true -> wellformed bs.
Proof.
  assert (forall n bs, length bs = n -> utf8_valid bs = true -> wellformed bs) as Hn.
  2: { eauto. }
  induction n as [n IH] using lt_wf_ind. intros b Hl H.
  destruct b as [|x r1]; [by exists []; constructor|]. simpl in H, Hl.
  unfold in_range, is_cont in H.
  destruct (N.ltb_spec x 128).
  { apply (wellformed_cons x [x]); [by constructor|]. eapply IH; [|done|done]. lia. }
  destruct ((194 <=? x) && (x <=? 223)) eqn:E2.
  { destruct r1 as [|y r2]; [done|]. simpl in Hl. apply andb_true_iff in H as [Hy Hv].
    destruct (off 192 x ltac:(lia)) as [a ->]. destruct (off 128 y ltac:(lia)) as [b ->].
    apply (wellformed_cons (a * 64 + b) [192 + a; 128 + b]); [constructor; lia|].
    eapply IH; [|reflexivity|done]. lia. }
  destruct ((224 <=? x) && (x <=? 239)) eqn:E3.
  { destruct r1 as [|y [|z r3]]; try done. simpl in Hl.
    apply andb_true_iff in H as [H Hv]. apply andb_true_iff in H as [Hy Hc].
    destruct (off 224 x ltac:(lia)) as [a ->]. destruct (off 128 y ltac:(lia)) as [b ->].
    destruct (off 128 z ltac:(lia)) as [c ->].
    apply (wellformed_cons (a * 4096 + b * 64 + c) [224 + a; 128 + b; 128 + c]).
    - constructor; try done; unfold scalar; lia.
    - eapply IH; [|reflexivity|done]. lia. }
  destruct ((240 <=? x) && (x <=? 244)) eqn:E4; [|done].
  destruct r1 as [|y [|z [|u r4]]]; try done. simpl in Hl.
  apply andb_true_iff in H as [H Hv]. apply andb_true_iff in H as [H Hd].
  apply andb_true_iff in H as [Hy Hc].
  destruct (off 240 x ltac:(lia)) as [a ->]. destruct (off 128 y ltac:(lia)) as [b ->].
  destruct (off 128 z ltac:(lia)) as [c ->]. destruct (off 128 u ltac:(lia)) as [d ->].
  apply (wellformed_cons (a * 262144 + b * 4096 + c * 64 + d) [240 + a; 128 + b; 128 + c; 128 + d]).
  - constructor; try done; unfold scalar; lia.
  - eapply IH; [|reflexivity|done]. lia.
Qed.
Lemma utf8_valid_complete cs bs : text cs bs -> utf8_valid bs = true.
Proof. induction 1; [done|]. by erewrite utf8_valid_app. Qed.
Lemma utf8_valid_ok bs : utf8_valid bs = true <-> wellformed bs.
Proof. split; [apply utf8_valid_sound|]. intros [cs H]. by eapply utf8_valid_complete. Qed.

(** ** UTF-16 *)
Lemma utf16_scalar c us : utf16 c us -> scalar c.
Proof. destruct 1; unfold scalar in *; lia. Qed.
Lemma surrogate_mask u : u < 65536 -> (N.land u 63488 =? 55296) = in_range 55296 57343 u.
Proof.
  intros Hu. assert (N.land u 63488 = u / 2048 * 2048) as ->.
  { transitivity (N.shiftl (N.shiftr u 11) 11).
    2: { by rewrite N.shiftl_mul_pow2, N.shiftr_div_pow2. }
    rewrite <-N.ldiff_ones_r. apply N.bits_inj. intros k. rewrite N.land_spec, N.ldiff_spec.
    destruct (N.testbit u k) eqn:E; [|done]. simpl.
    destruct (N.lt_ge_cases k 16) as [Hk|Hk].
    - assert (k = 0 \/ k = 1 \/ k = 2 \/ k = 3 \/ k = 4 \/ k = 5 \/ k = 6 \/ k = 7 \/ k = 8 \/ k = 9
              \/ k = 10 \/ k = 11 \/ k = 12 \/ k = 13 \/ k = 14 \/ k = 15) as Hc by lia.
      repeat (destruct Hc as [->|Hc]; [done|]). by subst.
    - exfalso. rewrite (N.bits_above_log2 u) in E; [done|].
      destruct (N.eq_dec u 0) as [->|Hu0]; [by rewrite N.bits_0 in E|].
      enough (N.log2 u < 16) by lia. apply N.log2_lt_pow2; [lia|]. done. }
  unfold in_range. lia.
Qed.

(** Decoding stops after the first error. *)
Lemma decode_utf16_app c us rest :
  utf16 c us -> decode_utf16 (us ++ rest) = Some c :: decode_utf16 rest.
Proof.
  destruct 1 as [a Ha Hs|a b Ha Hb]; simpl.
  - rewrite surrogate_mask by done. unfold in_range, scalar in *.
    replace ((55296 <=? a) && (a <=? 57343)) with false by lia. done.
  - rewrite surrogate_mask by lia. unfold in_range.
    replace ((55296 <=? 55296 + a) && (55296 + a <=? 57343)) with true by lia. simpl.
    destruct (N.leb_spec 56320 (55296 + a)); [lia|].
    destruct (N.ltb_spec (56320 + b) 56320); [lia|].
    destruct (N.ltb_spec 57343 (56320 + b)); [lia|]. simpl. bits.
    rewrite lor_10 by lia. do 2 f_equal. lia.
Qed.
Lemma decode_utf16_complete cs us : text16 cs us -> decode_utf16 us = Some <$> cs.
Proof. induction 1; simpl; [done|]. erewrite decode_utf16_app by done. by f_equal. Qed.
(** What is decoded before an error is a prefix that is well formed. *)
Lemma decode_utf16_sound us : Forall (fun u => u < 65536) us ->
  exists cs, (decode_utf16 us = Some <$> cs /\ text16 cs us) \/
    (decode_utf16 us = (Some <$> cs) ++ [None] /\ Forall scalar cs /\ ~ exists cs', text16 cs' us).
Proof.
  assert (forall n us, length us = n -> Forall (fun u => u < 65536) us ->
    exists cs, (decode_utf16 us = Some <$> cs /\ text16 cs us) \/
      (decode_utf16 us = (Some <$> cs) ++ [None] /\ Forall scalar cs /\ ~ exists cs', text16 cs' us)) as Hn.
  2: { eauto. }
  induction n as [n IH] using lt_wf_ind. intros l Hl Hall.
  destruct l as [|u r]; [exists []; left; split; [done|constructor]|].
  apply Forall_cons in Hall as [Hu Hr]. simpl in *. rewrite surrogate_mask by done.
  destruct (in_range 55296 57343 u) eqn:Es; unfold in_range in Es; simpl.
  - destruct (N.leb_spec 56320 u) as [Hlow|Hhigh].
    { exists []. right. split; [done|]. split; [constructor|]. intros [cs' Ht].
      inversion Ht as [|c cs us' uss Hc Ht' E1 E2]; subst. inversion Hc; subst; simpl in *.
      - injection E2 as -> ->. unfold scalar in *. lia.
      - injection E2 as <- <-. lia. }
    destruct r as [|u2 r'].
    { exists []. right. split; [done|]. split; [constructor|]. intros [cs' Ht].
      inversion Ht as [|c cs us' uss Hc Ht' E1 E2]; subst. inversion Hc; subst; simpl in *.
      - injection E2 as -> ->. unfold scalar in *. lia.
      - done. }
    apply Forall_cons in Hr as [Hu2 Hr'].
    destruct ((u2 <? 56320) || (57343 <? u2)) eqn:E2u.
    { exists []. right. split; [done|]. split; [constructor|]. intros [cs' Ht].
      inversion Ht as [|c cs us' uss Hc Ht' E1 E2]; subst. inversion Hc; subst; simpl in *.
      - injection E2 as -> ->. unfold scalar in *. lia.
      - injection E2 as <- <- <-. lia. }
    simpl in Hl. destruct (IH (length r') ltac:(lia) r' eq_refl Hr') as (cs&Hcase).
    destruct (off 55296 u ltac:(lia)) as [a ->]. destruct (off 56320 u2 ltac:(lia)) as [b ->].
    assert (utf16 (65536 + a * 1024 + b) [55296 + a; 56320 + b]) as Hc by (constructor; lia).
    bits. rewrite lor_10 by lia.
    replace ((55296 + a) mod 1024 * 1024 + (56320 + b) mod 1024 + 65536)
      with (65536 + a * 1024 + b) by lia.
    exists ((65536 + a * 1024 + b) :: cs). destruct Hcase as [[-> Ht]|(->&Hs&Hno)].
    + left. split; [done|]. by apply (text16_cons _ _ _ _ Hc).
    + right. split; [done|]. split; [constructor; [by eapply utf16_scalar|done]|].
      intros [cs' Ht]. inversion Ht as [|c' cs1 us' uss Hc' Ht' E1 E2]; subst.
      apply Hno. exists cs1. inversion Hc'; subst; simpl in *.
      * injection E2 as -> ->. unfold scalar in *. lia.
      * injection E2 as _ _ ->. done.
  - destruct (IH (length r) ltac:(simpl; lia) r eq_refl Hr) as (cs&Hcase).
    assert (utf16 u [u]) as Hc by (constructor; [done|unfold scalar; lia]).
    exists (u :: cs). destruct Hcase as [[-> Ht]|(->&Hs&Hno)].
    + left. split; [done|]. by apply (text16_cons _ _ _ _ Hc).
    + right. split; [done|]. split; [constructor; [by eapply utf16_scalar|done]|].
      intros [cs' Ht]. inversion Ht as [|c' cs1 us' uss Hc' Ht' E1 E2]; subst.
      apply Hno. exists cs1. inversion Hc'; subst; simpl in *.
      * injection E2 as _ ->. done.
      * injection E2 as <- <-. lia.
Qed.
Lemma text16_scalars cs us : text16 cs us -> Forall scalar cs.
Proof. induction 1; constructor; [by eapply utf16_scalar|done]. Qed.
Lemma text16_len cs us : text16 cs us -> llen cs <= llen us.
Proof. induction 1 as [|c cs us uss Hc _ IH]; [done|]. rewrite app_length. destruct Hc; simpl; lia. Qed.
