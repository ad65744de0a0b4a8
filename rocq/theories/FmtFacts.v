(** Proofs about formatted writing and mutable slices of strings (C90, C91). *)
From Verif Require Export FmtModel StrFacts SpecFmt.
From Coq Require Import ZifyBool ZifyNat ZifyN.
Ltac Zify.zify_post_hook ::= idtac.
Local Hint Resolve z8 nd8 : core.

(** The same parts, as the writer gets them. *)
Definition to_fpart (p : part) : fpart :=
  match p with Text ds => FStr (encode_all ds) | Char c => FChar c | Fail => FErr | Crash => FPanic end.

Section fmt.
  Context {EN : Env}.
  Notation W := (world N).
  Notation MS := (M (vec * W)).
  Implicit Types (w : W) (v : vec) (bs : list N) (cs : list N).

  Lemma written_cons cs p l r cs' : writes p -> written refuses (cs ++ part_chars p) l r cs' ->
    written refuses cs (p :: l) r cs'.
  Proof.
    intros Hp H. assert (forall l, (cs ++ part_chars p) ++ all_chars l = cs ++ all_chars (p :: l)) as E.
    { intros l'. unfold all_chars. simpl. by rewrite app_assoc. }
    destruct H as [l Hl|l post Hl|l post Hl|l q post Hr Hl Hq]; rewrite E.
    - constructor. by constructor.
    - apply (wr_fail _ _ (p :: l)). by constructor.
    - apply (wr_crash _ _ (p :: l)). by constructor.
    - apply (wr_refused _ _ (p :: l)); [done|by constructor|done].
  Qed.

  Lemma write_fmt_ok l : forall w v cs, strep w v cs -> Forall part_ok l ->
    tlen cs + tlen (all_chars l) <= isize_max ->
    exists r v' w', str_write_fmt (to_fpart <$> l) (v, w) = (r, (v', w')) /\
    ((exists cs', written refuses cs l r cs' /\ strep w' v' cs' /\ apart_from v w v' w') \/
     (e_strict = true /\ r = UB UninitRead /\ exists pre c post, l = pre ++ Char c :: post /\ Forall writes pre /\ 128 <= c)).
  Proof.
    induction l as [|p l IH]; intros w v cs Hs Ha Hf.
    { exists (Ret (Ok tt)), v, w. split; [done|]. left. exists cs. split; [|split; [done|apply af_refl]].
      pose proof (wr_all refuses cs [] (List.Forall_nil _)) as H. unfold all_chars in H. simpl in H.
      by rewrite app_nil_r in H. }
    apply Forall_cons in Ha as [Hp Ha]. unfold all_chars in Hf. cbn [fmap list_fmap concat] in Hf.
    rewrite tlen_app in Hf. fold (all_chars l) in Hf.
    assert (Hstep : forall (m : MS unit) v1 w1, writes p -> m (v, w) = (Ret tt, (v1, w1)) -> strep w1 v1 (cs ++ part_chars p) ->
      apart_from v w v1 w1 ->
      exists r v' w', (r <- (m ;; ret (Ok tt) : MS (result unit unit)); match r with Ok _ => str_write_fmt (to_fpart <$> l) | Err _ => ret (Err tt) end) (v, w)
        = (r, (v', w')) /\
      ((exists cs', written refuses cs (p :: l) r cs' /\ strep w' v' cs' /\ apart_from v w v' w') \/
       (e_strict = true /\ r = UB UninitRead /\
        exists pre c post, p :: l = pre ++ Char c :: post /\ Forall writes pre /\ 128 <= c))).
    { intros m v1 w1 Hw He Hs1 Haf. destruct (IH w1 v1 _ Hs1 Ha) as (r&v'&w'&He'&Hc).
      { rewrite tlen_app. lia. }
      exists r, v', w'. split.
      { erewrite bind_Ret by (erewrite bind_Ret by exact He; reflexivity). exact He'. }
      destruct Hc as [(cs'&H1&H2&H3)|(Hst&->&pre&c&post&->&Hpre&Hc)].
      - left. exists cs'. split; [by apply written_cons|]. split; [done|by eapply af_trans].
      - right. split; [done|]. split; [done|]. exists (p :: pre), c, post. split; [done|]. split; [|done]. by constructor. }
    assert (Hrefused : forall (m : MS unit) w1, writes p -> m (v, w) = (Panic PUnwrap, (v, w1)) -> strep w1 v cs ->
      apart_from v w v w1 -> refuses ->
      exists r v' w', (r <- (m ;; ret (Ok tt) : MS (result unit unit)); match r with Ok _ => str_write_fmt (to_fpart <$> l) | Err _ => ret (Err tt) end) (v, w)
        = (r, (v', w')) /\
      ((exists cs', written refuses cs (p :: l) r cs' /\ strep w' v' cs' /\ apart_from v w v' w') \/
       (e_strict = true /\ r = UB UninitRead /\
        exists pre c post, p :: l = pre ++ Char c :: post /\ Forall writes pre /\ 128 <= c))).
    { intros m w1 Hw He Hs1 Haf Hrf. exists (Panic PUnwrap), v, w1. split.
      { by erewrite !bind_Panic by (try erewrite bind_Panic by exact He; reflexivity). }
      left. exists cs. split; [|done].
      pose proof (wr_refused refuses cs [] p l Hrf (List.Forall_nil _) Hw) as H. unfold all_chars in H. simpl in H.
      by rewrite app_nil_r in H. }
    destruct p as [ds|c| |]; cbn [fmap list_fmap to_fpart str_write_fmt].
    - unfold str_write_str.
      destruct (str_push_str_ok w v cs ds (encode_all ds) Hs) as (r&v1&w1&He&Haf&_&_&[(->&Hs1)|(->&->&Hs1&Hrf)]).
      { by apply text_encode. } { simpl in Hf. lia. }
      + by eapply Hstep.
      + by eapply Hrefused.
    - unfold str_write_char. destruct (e_strict) eqn:Hst; [destruct (N.ltb_spec c 128) as [Hc|Hc]|].
      2: { exists (UB UninitRead), v, w. split.
           { unfold bind at 1. unfold bind at 1. by rewrite str_push_strict. }
           right. split; [done|]. split; [done|]. exists [], c, l. done. }
      all: (destruct (str_push_ok w v cs c Hs) as (r&v1&w1&He&Haf&_&_&[(->&Hs1)|(->&->&Hs1&Hrf)]);
        [by apply Forall_inv in Hp|simpl in Hf; lia|by auto|by eapply Hstep|by eapply Hrefused]).
    - rewrite bind_ret. exists (Ret (Err tt)), v, w. split; [done|]. left. exists cs. split; [|split; [done|apply af_refl]].
      pose proof (wr_fail refuses cs [] l (List.Forall_nil _)) as H. unfold all_chars in H. simpl in H. by rewrite app_nil_r in H.
    - rewrite bind_throw. exists (Panic PUser), v, w. split; [done|]. left. exists cs. split; [|split; [done|apply af_refl]].
      pose proof (wr_crash refuses cs [] l (List.Forall_nil _)) as H. unfold all_chars in H. simpl in H. by rewrite app_nil_r in H.
  Qed.

  (** Mapping the bytes of a slice in place. *)
  Lemma index_map_ok g h w v cs lo hi : (forall c cb, utf8 c cb -> utf8 (g c) (h <$> cb)) -> strep w v cs ->
    limit_arg lo -> limit_arg hi ->
    (exists xs ys zs w', cs = xs ++ ys ++ zs /\ from_ lo = tlen xs /\ to_ (tlen cs) hi = tlen (xs ++ ys) /\
       str_index_map (to_bound lo) (to_bound hi) h (v, w) = (Ret tt, (v, w')) /\
       strep w' v (xs ++ (g <$> ys) ++ zs) /\ keeps v w v w' []) \/
    (str_index_map (to_bound lo) (to_bound hi) h (v, w) = (Panic PIndex, (v, w)) /\
     ~ (from_ lo <= to_ (tlen cs) hi /\ boundary cs (from_ lo) /\ boundary cs (to_ (tlen cs) hi))).
  Proof.
    intros Hgh Hs Hlo Hhi. destruct (str_index_ok w v cs lo hi Hs Hlo Hhi) as (o&He&Hc).
    destruct Hs as (bs&Ht&Hr). unfold str_index in He. rewrite (bind_bytes _ _ _ _ Hr) in He.
    unfold str_index_map. rewrite (bind_bytes _ _ _ _ Hr).
    destruct Hc as [(xs&ys&zs&sub&->&->&Hfrom&Hto&Hsub)|(->&Hno)].
    - left. rewrite (bind_Ret _ _ _ _ _ He), bind_get_fst.
      apply text_app_inv in Ht as (xb&b2&->&Hx&(yb&zb&->&Hy&Hzz)%text_app_inv).
      assert (sub = yb) as ->. { eapply text_fun; [exact Hsub|exact Hy]. }
      destruct (N.eqb_spec (llen yb) 0) as [H0|H0].
      + assert (yb = []) as -> by (destruct yb; [done|simpl in H0; lia]).
        assert (ys = []) as -> by (by apply text_empty).
        exists xs, [], zs, w. split_and!; try done; [|apply keeps_refl].
        exists (xb ++ zb). split; [by apply text_app|done].
      + destruct (overwrite_ok w v xb yb (h <$> yb) zb Hr) as (w'&Hcp&Hr'&Hk); [by rewrite fmap_length| |].
        { destruct yb; [simpl in H0; lia|done]. }
        exists xs, ys, zs, w'. split_and!; try done.
        * apply on_snd_Ret. replace (bound_start (to_bound lo)) with (llen xb); [done|].
          rewrite (text_len _ _ Hx), <-Hfrom. by destruct lo.
        * exists (xb ++ (h <$> yb) ++ zb). split; [|done].
          apply text_app; [done|]. apply text_app; [|done]. by apply text_map.
    - right. split; [|done]. by rewrite (bind_Panic _ _ _ _ _ He).
  Qed.
End fmt.

(** * C90 *)

(** Full statement: [write!] into a string appends the formatted text.  Missing: in the strict reading,
    non-ASCII characters written one by one (see [C90_char_refuted]).  An error or panic of the formatted
    value, or a refused request for memory, leaves what was written before. *)
Lemma p_C90_write_partial : forall (EN : Env) v (w : world N) cs l,
  has_text v w cs -> Forall part_ok l -> tlen cs + tlen (all_chars l) <= isize_max ->
  exists r v' w', str_write_fmt (to_fpart <$> l) (v, w) = (r, (v', w')) /\
  ((exists cs' bs, written refuses cs l r cs' /\ vec_as_slice v' w' = (Ret bs, w') /\ text cs' bs /\
      delete_ptr (vdata v') (heap w') = delete_ptr (vdata v) (heap w)) \/
   (e_strict = true /\ r = UB UninitRead /\
    exists pre c post, l = pre ++ Char c :: post /\ Forall writes pre /\ 128 <= c)).
Proof.
  intros EN v w cs l Ht Ha Hf. apply has_text_rep in Ht.
  destruct (write_fmt_ok l w v cs Ht Ha Hf) as (r&v'&w'&He&Hc). exists r, v', w'. split; [done|].
  destruct Hc as [(cs'&H1&(bs&H2&H3)&H4)|?]; [|by right]. left. exists cs', bs. split; [done|].
  split; [by apply (as_slice_ok z8)|]. split; [done|]. by apply af_rest.
Qed.
Lemma x_C90_write_ex : @has_text env_debug (fst t1) (snd t1) [97; 233; 122] /\
  Forall part_ok [Text [8364]; Char 65; Fail; Text [66]] /\
  (let '(r, (v, w)) := str_write_fmt (EN:=env_debug) (to_fpart <$> [Text [8364]; Char 65; Fail; Text [66]]) t1 in
   (r, fst (vec_as_slice v w))) = (Ret (Err tt), Ret [97; 195; 169; 122; 226; 130; 172; 65]).
Proof. split; [by eexists; apply t1_text|]. split; [by args|by vm_compute]. Qed.

(** When the allocator does not refuse and nothing fails, everything is written and the result is [Ok]. *)
Lemma p_C90_all : forall (EN : Env) v (w : world N) cs l,
  has_text v w cs -> Forall part_ok l -> tlen cs + tlen (all_chars l) <= isize_max ->
  ~ refuses -> Forall writes l -> (e_strict = true -> forall c, Char c ∈ l -> c < 128) ->
  exists v' w' bs, str_write_fmt (to_fpart <$> l) (v, w) = (Ret (Ok tt), (v', w')) /\
    vec_as_slice v' w' = (Ret bs, w') /\ text (cs ++ all_chars l) bs /\
    delete_ptr (vdata v') (heap w') = delete_ptr (vdata v) (heap w).
Proof.
  intros EN v w cs l Ht Ha Hf Hnr Hwr Hst.
  destruct (p_C90_write_partial EN v w cs l Ht Ha Hf) as (r&v'&w'&He&[(cs'&bs&H1&H2&H3&H4)|(H1&_&pre&c&post&->&_&Hc)]).
  - destruct H1 as [l Hl|l post Hl|l post Hl|l q post Hr Hl Hq]; [|exfalso..].
    + by exists v', w', bs.
    + apply Forall_app in Hwr as [_ [Hb _]%Forall_cons]. done.
    + apply Forall_app in Hwr as [_ [Hb _]%Forall_cons]. done.
    + done.
  - exfalso. specialize (Hst H1 c). rewrite elem_of_app, elem_of_cons in Hst. specialize (Hst (or_intror (or_introl eq_refl))).
    clear -Hst Hc. lia.
Qed.
Lemma x_C90_all_ex : @has_text env_debug (fst t1) (snd t1) [97; 233; 122] /\
  Forall writes [Text [8364]; Char 65] /\ ~ @refuses env_debug /\
  fst (str_write_fmt (EN:=env_debug) (to_fpart <$> [Text [8364]; Char 65]) t1) = Ret (Ok tt).
Proof.
  split; [by eexists; apply t1_text|]. split; [by args|]. split; [|by vm_compute].
  intros (n&sz&H1). done.
Qed.

Lemma p_C90_char_refuted : exists (EN : Env) v (w : world N) cs l,
  has_text v w cs /\ Forall part_ok l /\ Forall writes l /\ tlen cs + tlen (all_chars l) <= isize_max /\
  fst (str_write_fmt (to_fpart <$> l) (v, w)) = UB UninitRead.
Proof.
  exists env_debug, (fst t1), (snd t1), [97; 233; 122], [Char 233].
  split; [by eexists; apply t1_text|]. split; [by args|]. split; [by args|]. split; [by vm_compute|by vm_compute].
Qed.

(** * C91 *)

(** Changing the ASCII letters of a mutable slice to upper case: exactly the characters of the slice
    change, in place. *)
Lemma p_C91_upper : forall (EN : Env) v (w : world N) xs ys zs lo hi,
  has_text v w (xs ++ ys ++ zs) -> limit_arg lo -> limit_arg hi ->
  from_ lo = tlen xs -> to_ (tlen (xs ++ ys ++ zs)) hi = tlen (xs ++ ys) ->
  exists w' bs, str_index_map (to_bound lo) (to_bound hi) ascii_upper (v, w) = (Ret tt, (v, w')) /\
    vec_as_slice v w' = (Ret bs, w') /\ text (xs ++ (upper <$> ys) ++ zs) bs /\
    delete_ptr (vdata v) (heap w') = delete_ptr (vdata v) (heap w).
Proof.
  intros EN v w xs ys zs lo hi Ht Hlo Hhi Hf Hto. apply has_text_rep in Ht.
  destruct (index_map_ok upper ascii_upper w v _ lo hi utf8_upper Ht Hlo Hhi)
    as [(xs'&ys'&zs'&w'&E&Hf'&Hto'&He&(bs&Htx&Hr)&Hk)|(_&Hno)].
  - rewrite Hf in Hf'. rewrite Hto in Hto'.
    apply tlen_split in E as [<- E]; [|done]. rewrite !tlen_app in Hto'. apply tlen_split in E as [<- <-]; [|clear -Hto'; lia].
    exists w', bs. split; [done|]. split; [by apply (as_slice_ok z8)|]. split; [done|].
    by apply af_rest, (keeps_af _ _ _ _ []).
  - exfalso. apply Hno. rewrite Hf, Hto. split; [rewrite tlen_app; clear; lia|].
    split; [by exists xs, (ys ++ zs)|]. exists (xs ++ ys), zs. by rewrite app_assoc.
Qed.
Lemma x_C91_upper_ex : @has_text env_debug (fst t1) (snd t1) ([97] ++ [233; 122] ++ []) /\
  from_ (LIncl 1) = tlen [97] /\ to_ (tlen ([97] ++ [233; 122] ++ [])) LOpen = tlen ([97] ++ [233; 122]) /\
  (let '(r, (v, w)) := str_index_map (Included 1) Unbounded ascii_upper t1 in
   (r, fst (vec_as_slice v w))) = (Ret tt, Ret [97; 195; 169; 90]).
Proof. split; [by eexists; apply t1_text|]. split; [done|]. split; [done|by vm_compute]. Qed.

(** And to lower case. *)
Lemma p_C91_lower : forall (EN : Env) v (w : world N) xs ys zs lo hi,
  has_text v w (xs ++ ys ++ zs) -> limit_arg lo -> limit_arg hi ->
  from_ lo = tlen xs -> to_ (tlen (xs ++ ys ++ zs)) hi = tlen (xs ++ ys) ->
  exists w' bs, str_index_map (to_bound lo) (to_bound hi) ascii_lower (v, w) = (Ret tt, (v, w')) /\
    vec_as_slice v w' = (Ret bs, w') /\ text (xs ++ (lower <$> ys) ++ zs) bs /\
    delete_ptr (vdata v) (heap w') = delete_ptr (vdata v) (heap w).
Proof.
  intros EN v w xs ys zs lo hi Ht Hlo Hhi Hf Hto. apply has_text_rep in Ht.
  destruct (index_map_ok lower ascii_lower w v _ lo hi utf8_lower Ht Hlo Hhi)
    as [(xs'&ys'&zs'&w'&E&Hf'&Hto'&He&(bs&Htx&Hr)&Hk)|(_&Hno)].
  - rewrite Hf in Hf'. rewrite Hto in Hto'.
    apply tlen_split in E as [<- E]; [|done]. rewrite !tlen_app in Hto'. apply tlen_split in E as [<- <-]; [|clear -Hto'; lia].
    exists w', bs. split; [done|]. split; [by apply (as_slice_ok z8)|]. split; [done|].
    by apply af_rest, (keeps_af _ _ _ _ []).
  - exfalso. apply Hno. rewrite Hf, Hto. split; [rewrite tlen_app; clear; lia|].
    split; [by exists xs, (ys ++ zs)|]. exists (xs ++ ys), zs. by rewrite app_assoc.
Qed.
Lemma x_C91_lower_ex : @has_text env_debug (fst t1) (snd t1) ([97] ++ [233; 122] ++ []) /\
  from_ LOpen = tlen [] /\ to_ (tlen ([] ++ [97] ++ [233; 122])) (LIncl 0) = tlen ([] ++ [97]).
Proof. split; [by eexists; apply t1_text|]. done. Qed.

(** Any other range panics and changes nothing. *)
Lemma p_C91_bad : forall (EN : Env) v (w : world N) cs lo hi,
  has_text v w cs -> limit_arg lo -> limit_arg hi ->
  ~ (from_ lo <= to_ (tlen cs) hi /\ boundary cs (from_ lo) /\ boundary cs (to_ (tlen cs) hi)) ->
  str_index_map (to_bound lo) (to_bound hi) ascii_upper (v, w) = (Panic PIndex, (v, w)).
Proof.
  intros EN v w cs lo hi Ht Hlo Hhi Hno. apply has_text_rep in Ht.
  destruct (index_map_ok upper ascii_upper w v _ lo hi utf8_upper Ht Hlo Hhi)
    as [(xs&ys&zs&w'&->&Hf&Hto&_)|(He&_)]; [|done].
  exfalso. apply Hno. rewrite Hf, Hto. split; [rewrite tlen_app; clear; lia|].
  split; [by exists xs, (ys ++ zs)|]. exists (xs ++ ys), zs. by rewrite app_assoc.
Qed.
Lemma x_C91_bad_ex : @has_text env_debug (fst t1) (snd t1) [97; 233; 122] /\ limit_arg (LExcl 2) /\
  ~ boundary [97; 233; 122] 2 /\
  fst (str_index_map Unbounded (Excluded 2) ascii_upper t1) = Panic PIndex.
Proof.
  split; [by eexists; apply t1_text|]. split; [by vm_compute|]. split; [|by vm_compute].
  intros Hb. apply (boundary_ok _ (encode_all [97; 233; 122])) in Hb; [by vm_compute in Hb|]. apply text_encode. by args.
Qed.
