(** Running a history of calls on the string model, and its refinement of the text specification. *)
From Verif Require Export StrProofs4 VecReach.
From Coq Require Import ZifyBool ZifyNat ZifyN.
Ltac Zify.zify_post_hook ::= idtac.

Section str_run.
  Context {EN : Env}.
  Local Existing Instance u8.
  Notation W := (world N).
  Notation MS := (M (vec * W)).
  Implicit Types (w : W) (v s : vec) (bs : list N) (cs : list N).
  Hint Resolve z8 nd8 : core.

  (** One call. *)
  Definition texec (op : top) : MS (vret N) :=
    match op with
    | TPush c => str_push c ;; ret RUnit
    | TPop => o <- str_pop; ret (ROpt o)
    | TPushStr ds => str_push_str (encode_all ds) ;; ret RUnit
    | TClear => str_clear ;; ret RUnit
    | TInsert i c => str_insert i c ;; ret RUnit
    | TInsertStr i ds => str_insert_str i (encode_all ds) ;; ret RUnit
    | TRemove i => c <- str_remove i; ret (RVal c)
    | TTruncate n => str_truncate n ;; ret RUnit
    | TRetain f => str_retain (asked f) [] ;; ret RUnit
    | TSlice lo hi => bs <- str_index (to_bound lo) (to_bound hi); ret (RList bs)
    | TAsStr => bs <- str_bytes; ret (RList bs)
    | TLen => bs <- str_bytes; ret (RNum (llen bs))
    | TUpper => str_map_bytes ascii_upper ;; ret RUnit
    | TLower => str_map_bytes ascii_lower ;; ret RUnit
    | TReserve n => vec_reserve n ;; ret RUnit
    | TReserveExact n => vec_reserve_exact n ;; ret RUnit
    | TTryReserve n => r <- vec_try_reserve n; ret (RResult r)
    | TTryReserveExact n => r <- vec_try_reserve_exact n; ret (RResult r)
    | TShrinkTo m => vec_shrink_to m ;; ret RUnit
    | TShrinkToFit => vec_shrink_to_fit ;; ret RUnit
    | TExtendChars it h => str_extend_chars it h ;; ret RUnit
    | TExtendStrs it => str_extend_strs (option_map encode_all <$> it) ;; ret RUnit
    | TExtendStrings it => str_extend_built (encode_all <$> it) ;; ret RUnit
    | TSplitOff i => o <- str_split_off i; on_snd (vec_drop_val o) ;; ret RUnit
    | TSetScope s => set_scope s ;; ret RUnit
    | TMutVec op => vexec op
    end.

  (** A history: after a caught panic the next call is made; undefined behaviour and aborts end it. *)
  Fixpoint trun (ops : list top) (st : vec * W) : list (res (vret N)) * (vec * W) :=
    match ops with
    | [] => ([], st)
    | op :: ops =>
        match texec op st with
        | (Ret a, st') => let '(outs, st'') := trun ops st' in (Ret a :: outs, st'')
        | (Panic p, st') => let '(outs, st'') := trun ops st' in (Panic p :: outs, st'')
        | (r, st') => ([r], st')
        end
    end.

  Notation bound D := (N.max (2 * D) 8).
  Definition not_mut (op : top) : Prop := match op with TMutVec _ => False | _ => True end.

  Lemma mem_op (D d : N) w v cs v' w' : strep w v cs -> tlen cs <= D -> apart_from v w v' w' ->
    strep w' v' cs -> vcap v' <= bound (D + d) ->
    strep w' v' cs /\ vrest v' w' = vrest v w /\ vcap v' <= bound (D + d) /\ tlen cs <= D + d.
  Proof.
    intros Hs Hl Haf Hs' Hc. split; [done|]. split; [by apply af_rest|]. split; [done|lia].
  Qed.

  Ltac ok := (split; [reflexivity|]); left.
  Ltac fine Haf Hs := split; [exact Hs|]; split; [first [by apply af_rest | exact (af_rest _ _ _ _ Haf)]|]; split; [lia|].

  Lemma tstep_ok D op w v cs :
    strep w v cs -> vcap v <= bound D -> tlen cs <= D -> bound (D + tdemand op) <= isize_max ->
    args_ok op -> not_mut op ->
    exists o v' w', texec op (v, w) = (o, (v', w')) /\
      ((exists cs', tspec refuses cs op o cs' /\ strep w' v' cs' /\ vrest v' w' = vrest v w /\
          vcap v' <= bound (D + tdemand op) /\ tlen cs' <= D + tdemand op) \/
       (exists u, o = UB u /\ tunsound e_strict cs op u)).
  Proof.
    intros Hs Hcap Hlen Hfit Hargs Hnm.
    pose proof (strep_cap _ _ _ Hs) as [Hc0 Hc1]. pose proof Hs as (bs&Ht&Hr).
    pose proof (text_len _ _ Ht) as Htl.
    assert (Ham : forall n, vcap v < n -> n <= D + tdemand op ->
      amortized (vcap v) n <= bound (D + tdemand op)).
    { intros n Hlt Hn. unfold amortized. pose proof (min_cap_le (EL:=u8) z8). lia. }
    destruct op as [c| |ds| |i c|i ds|i|n|f|lo hi| | | | |n|n|n|n|m| |it h|it|it|i|sc|vop];
      cbn [texec tdemand args_ok not_mut] in *; try done.
    - (* push *)
      destruct (N.lt_ge_cases c 128) as [Hlt|Hge]; [|destruct e_strict eqn:Est].
      2: { exists (UB UninitRead), v, w. split; [by erewrite bind_UB by (by apply str_push_strict)|].
           right. exists UninitRead. split; [done|]. left. split; [done|]. split; [done|]. left. eauto. }
      all: destruct (str_push_ok w v cs c Hs Hargs) as (r1&v1&w1&He&Haf&Hc2&Hc3&Hcase); [lia|auto|].
      all: destruct Hcase as [(->&Hs1)|(->&->&Hs1&Hrf)].
      1,3: erewrite bind_Ret by exact He; eexists _, _, _; ok; exists (cs ++ [c]); split; [constructor|];
        fine Haf Hs1; rewrite tlen_app; simpl; lia.
      all: erewrite bind_Panic by exact He; eexists _, _, _; ok; exists cs; split; [by constructor|];
        fine Haf Hs1; lia.
    - (* pop *)
      destruct (str_pop_ok w v cs Hs) as (v'&w'&He&Haf&Hc&Hs'). erewrite bind_Ret by exact He.
      eexists _, _, _. ok. exists (take (length cs - 1) cs). destruct cs as [|c cs _] using rev_ind.
      + split; [constructor|]. fine Haf Hs'. simpl. lia.
      + rewrite last_snoc. rewrite app_length in *. simpl in *.
        replace (length cs + 1 - 1)%nat with (length cs) in * by lia. rewrite take_app in *.
        split; [constructor|]. rewrite tlen_app in Hlen. fine Haf Hs'. lia.
    - (* push_str *)
      destruct (str_push_str_ok w v cs ds (encode_all ds) Hs) as (r1&v1&w1&He&Haf&Hc2&Hc3&Hcase).
      { by apply text_encode. } { lia. }
      destruct Hcase as [(->&Hs1)|(->&->&Hs1&Hrf)].
      + erewrite bind_Ret by exact He. eexists _, _, _. ok. exists (cs ++ ds). split; [constructor|].
        fine Haf Hs1. rewrite tlen_app. lia.
      + erewrite bind_Panic by exact He. eexists _, _, _. ok. exists cs. split; [by constructor|].
        fine Haf Hs1. lia.
    - (* clear *)
      destruct (str_clear_ok w v cs Hs) as (v'&w'&He&Haf&Hc&Hs'). erewrite bind_Ret by exact He.
      eexists _, _, _. ok. exists []. split; [constructor|]. fine Haf Hs'. simpl. lia.
    - (* insert *)
      destruct Hargs as [Hi Hsc].
      destruct (boundary_dec cs bs i Ht) as [Hb|Hb]; [destruct e_strict eqn:Est|].
      { exists (UB UninitRead), v, w. split; [by erewrite bind_UB by (by eapply str_insert_strict)|].
        right. exists UninitRead. split; [done|]. left. split; [done|]. split; [done|]. right. left. eauto. }
      all: assert (He0 : (str_insert i c ;; ret RUnit : MS (vret N)) (v, w) =
             (str_insert_str i (encode_utf8 c) ;; ret RUnit : MS (vret N)) (v, w))
             by (unfold bind; rewrite (str_insert_eq w v cs i c Hs Hsc) by auto; done).
      all: rewrite He0.
      all: destruct (str_insert_str_ok w v cs i [c] (encode_utf8 c) Hs)
        as [[Hnb He]|(xs&ys&r&v1&w1&Hcs&Hidx&He&Haf&Hc&Hcase)];
        [by apply text_one, encode_utf8_ok
        |intros Hlt; simpl in *; eapply N.le_trans; [apply Ham; [exact Hlt|lia]|lia]
        |try done|].
      all: try (erewrite bind_Panic by exact He; eexists _, _, _; ok; exists cs; split; [by constructor|];
        fine (af_refl v w) Hs; lia).
      + assert (vcap v1 <= bound (D + ulen c)) as Hcb.
        { destruct Hc as [->|[Hlt ->]]; [lia|]. apply Ham; [done|]. simpl. lia. }
        destruct Hcase as [(->&Hs1)|(->&->&Hs1&Hrf)].
        * erewrite bind_Ret by exact He. eexists _, _, _. ok. exists (xs ++ c :: ys). subst cs.
          split; [by constructor|]. rewrite tlen_app in Hlen. fine Haf Hs1.
          rewrite tlen_app. simpl. lia.
        * erewrite bind_Panic by exact He. eexists _, _, _. ok. exists cs. split; [by constructor|].
          fine Haf Hs1. lia.
      + exfalso. apply Hb. by exists xs, ys.
    - (* insert_str *)
      destruct Hargs as [Hi Hsc].
      destruct (str_insert_str_ok w v cs i ds (encode_all ds) Hs)
        as [[Hnb He]|(xs&ys&r&v1&w1&Hcs&Hidx&He&Haf&Hc&Hcase)].
      { by apply text_encode. }
      { intros Hlt. eapply N.le_trans; [apply Ham; [exact Hlt|lia]|lia]. }
      { erewrite bind_Panic by exact He. eexists _, _, _. ok. exists cs. split; [by constructor|].
        fine (af_refl v w) Hs. lia. }
      assert (vcap v1 <= bound (D + tlen ds)) as Hcb.
      { destruct Hc as [->|[Hlt ->]]; [lia|]. apply Ham; [done|]. lia. }
      destruct Hcase as [(->&Hs1)|(->&->&Hs1&Hrf)].
      + erewrite bind_Ret by exact He. eexists _, _, _. ok. exists (xs ++ ds ++ ys). subst cs.
        split; [by constructor|]. rewrite tlen_app in Hlen. fine Haf Hs1.
        rewrite !tlen_app. lia.
      + erewrite bind_Panic by exact He. eexists _, _, _. ok. exists cs. split.
        { apply t_insert_str_refused; [done|]. by exists xs, ys. }
        fine Haf Hs1. lia.
    - (* remove *)
      destruct (str_remove_ok w v cs i Hs Hargs)
        as [[Hnb He]|[[Hi He]|(xs&c&ys&v'&w'&->&Hi&He&Haf&Hc&Hs')]].
      1,2: erewrite bind_Panic by exact He; eexists _, _, _; ok; exists cs; split; [by constructor|];
        fine (af_refl v w) Hs; lia.
      erewrite bind_Ret by exact He. eexists _, _, _. ok. exists (xs ++ ys). split; [by constructor|].
      rewrite tlen_app in Hlen. simpl in Hlen. fine Haf Hs'. rewrite tlen_app. lia.
    - (* truncate *)
      destruct (str_truncate_ok w v cs n Hs)
        as [[Hn He]|[(Hn&Hnb&He)|(xs&ys&v'&w'&->&Hn&He&Haf&Hc&Hs')]].
      + erewrite bind_Ret by exact He. eexists _, _, _. ok. exists cs. split; [by constructor|].
        fine (af_refl v w) Hs. lia.
      + erewrite bind_Panic by exact He. eexists _, _, _. ok. exists cs. split; [by constructor|].
        fine (af_refl v w) Hs. lia.
      + erewrite bind_Ret by exact He. eexists _, _, _. ok. exists xs. split; [by constructor|].
        rewrite tlen_app in Hlen. fine Haf Hs'. lia.
    - (* retain *)
      destruct (str_retain_ok f w v cs Hs) as (ks&ok&r&v'&w'&Hk&He&Haf&Hc&Hs'&Hres).
      assert (tlen ks <= tlen cs) as Hle.
      { clear -Hk. induction Hk; simpl; lia. }
      destruct ok.
      + destruct Hres as [st ->]. erewrite bind_Ret by exact He. eexists _, _, _. ok. exists ks.
        split; [by constructor|]. fine Haf Hs'. lia.
      + subst r. erewrite bind_Panic by exact He. eexists _, _, _. ok. exists ks.
        split; [by constructor|]. fine Haf Hs'. lia.
    - (* slice *)
      destruct Hargs as [Hlo Hhi].
      destruct (str_index_ok w v cs lo hi Hs Hlo Hhi) as (o&He&[(xs&ys&zs&b&->&Hcs&Hf&Hto&Hty)|(->&Hbad)]).
      + erewrite bind_Ret by exact He. eexists _, _, _. ok. exists cs. split; [by eapply t_slice|].
        fine (af_refl v w) Hs. lia.
      + erewrite bind_Panic by exact He. eexists _, _, _. ok. exists cs. split; [by constructor|].
        fine (af_refl v w) Hs. lia.
    - (* as_str *)
      rewrite (bind_bytes _ _ _ _ Hr). eexists _, _, _. ok. exists cs. split; [by constructor|].
      fine (af_refl v w) Hs. lia.
    - (* len *)
      rewrite (bind_bytes _ _ _ _ Hr). eexists _, _, _. ok. exists cs. rewrite Htl. split; [by constructor|].
      fine (af_refl v w) Hs. lia.
    - (* make_ascii_uppercase *)
      destruct (str_case_ok upper ascii_upper w v cs utf8_upper Hs) as (w'&He&Hs'&Haf).
      erewrite bind_Ret by exact He. eexists _, _, _. ok. exists (upper <$> cs). split; [constructor|].
      fine Haf Hs'. rewrite (tlen_map upper ascii_upper cs bs utf8_upper Ht). lia.
    - destruct (str_case_ok lower ascii_lower w v cs utf8_lower Hs) as (w'&He&Hs'&Haf).
      erewrite bind_Ret by exact He. eexists _, _, _. ok. exists (lower <$> cs). split; [constructor|].
      fine Haf Hs'. rewrite (tlen_map lower ascii_lower cs bs utf8_lower Ht). lia.
    - (* reserve *)
      destruct (reserve_ok z8 w v bs n Hr) as (r&v1&w1&He&Hk&Hr1&Hcase).
      { intros Hlt. apply fits8. eapply N.le_trans; [apply Ham; [exact Hlt|lia]|lia]. }
      assert (strep w1 v1 cs) as Hs1 by (by exists bs). pose proof (keeps_af _ _ _ _ _ Hk) as Haf.
      destruct Hcase as [(->&_&_&Hle&Hgt)|(->&->&_&Hrf)].
      + erewrite bind_Ret by exact He. eexists _, _, _. ok. exists cs. split; [constructor|].
        assert (vcap v1 <= bound (D + n)) as Hcb.
        { destruct (N.le_gt_cases (llen bs + n) (vcap v)) as [H|H];
            [destruct (Hle H) as [-> _]; lia|rewrite (Hgt H); apply Ham; [done|lia]]. }
        fine Haf Hs1. lia.
      + erewrite bind_Panic by exact He. eexists _, _, _. ok. exists cs. split.
        { constructor. unfold refuses. eauto. } fine Haf Hs1. lia.
    - (* reserve_exact *)
      destruct (reserve_exact_ok z8 w v bs n Hr) as (r&v1&w1&He&Hk&Hr1&Hcase).
      { apply fits8. lia. }
      assert (strep w1 v1 cs) as Hs1 by (by exists bs). pose proof (keeps_af _ _ _ _ _ Hk) as Haf.
      destruct Hcase as [(->&_&_&Hle&Hgt)|(->&->&_&Hrf)].
      + erewrite bind_Ret by exact He. eexists _, _, _. ok. exists cs. split; [constructor|].
        assert (vcap v1 <= bound (D + n)) as Hcb.
        { destruct (N.le_gt_cases (llen bs + n) (vcap v)) as [H|H];
            [destruct (Hle H) as [-> _]; lia|rewrite (Hgt H); lia]. }
        fine Haf Hs1. lia.
      + erewrite bind_Panic by exact He. eexists _, _, _. ok. exists cs. split.
        { constructor. unfold refuses. eauto. } fine Haf Hs1. lia.
    - (* try_reserve *)
      destruct (try_reserve_ok z8 w v bs n Hr) as (r&v1&w1&He&Hk&Hr1&Hcase).
      { intros Hlt. apply fits8. eapply N.le_trans; [apply Ham; [exact Hlt|lia]|lia]. }
      assert (strep w1 v1 cs) as Hs1 by (by exists bs). pose proof (keeps_af _ _ _ _ _ Hk) as Haf.
      erewrite bind_Ret by exact He.
      destruct Hcase as [(->&_&_&Hle&Hgt)|(->&->&_&Hrf)].
      + eexists _, _, _. ok. exists cs. split; [constructor|].
        assert (vcap v1 <= bound (D + n)) as Hcb.
        { destruct (N.le_gt_cases (llen bs + n) (vcap v)) as [H|H];
            [destruct (Hle H) as [-> _]; lia|rewrite (Hgt H); apply Ham; [done|lia]]. }
        fine Haf Hs1. lia.
      + eexists _, _, _. ok. exists cs. split.
        { constructor. unfold refuses. eauto. } fine Haf Hs1. lia.
    - (* try_reserve_exact *)
      destruct (try_reserve_exact_ok z8 w v bs n Hr) as (r&v1&w1&He&Hk&Hr1&Hcase).
      { apply fits8. lia. }
      assert (strep w1 v1 cs) as Hs1 by (by exists bs). pose proof (keeps_af _ _ _ _ _ Hk) as Haf.
      erewrite bind_Ret by exact He.
      destruct Hcase as [(->&_&_&Hle&Hgt)|(->&->&_&Hrf)].
      + eexists _, _, _. ok. exists cs. split; [constructor|].
        assert (vcap v1 <= bound (D + n)) as Hcb.
        { destruct (N.le_gt_cases (llen bs + n) (vcap v)) as [H|H];
            [destruct (Hle H) as [-> _]; lia|rewrite (Hgt H); lia]. }
        fine Haf Hs1. lia.
      + eexists _, _, _. ok. exists cs. split.
        { constructor. unfold refuses. eauto. } fine Haf Hs1. lia.
    - (* shrink_to *)
      destruct (N.lt_ge_cases 0 (N.max (llen bs) m)) as [Hpos|Hz0];
        [|destruct (N.eq_dec (vcap v) 0) as [Hcz|Hcz]].
      3: { assert (bs = []) as -> by (destruct bs; [done|simpl in *; lia]). assert (m = 0) as -> by lia.
           pose proof (shrink_to_zero z8 w v Hr) as Hu. destruct (vec_shrink_to 0 (v, w)) as [r [v1 w1]] eqn:E.
           simpl in Hu. rewrite Hu in E by lia. eexists _, _, _.
           split; [by erewrite bind_UB by exact E|]. right. exists ZeroSizeAlloc. split; [done|].
           right. split; [by right|]. split; [|done]. by apply text_empty. }
      all: destruct (shrink_to_ok z8 w v bs m Hr) as (r&v1&w1&He&Hr1&Hk&Hcase); [by auto|].
      all: assert (strep w1 v1 cs) as Hs1 by (by exists bs); pose proof (keeps_af _ _ _ _ _ Hk) as Haf.
      all: destruct Hcase as [(->&Hc)|(->&->&Hrf)].
      1,3: erewrite bind_Ret by exact He; eexists _, _, _; ok; exists cs; split; [constructor|]; fine Haf Hs1; lia.
      all: erewrite bind_Panic by exact He; eexists _, _, _; ok; exists cs; split; [by constructor|]; fine Haf Hs1; lia.
    - (* shrink_to_fit *)
      rewrite (bind_ext _ _ _ _ (shrink_to_fit_eq w v bs Hr)).
      destruct (N.lt_ge_cases 0 (N.max (llen bs) 0)) as [Hpos|Hz0];
        [|destruct (N.eq_dec (vcap v) 0) as [Hcz|Hcz]].
      3: { assert (bs = []) as -> by (destruct bs; [done|simpl in *; lia]).
           pose proof (shrink_to_zero z8 w v Hr) as Hu. destruct (vec_shrink_to 0 (v, w)) as [r [v1 w1]] eqn:E.
           simpl in Hu. rewrite Hu in E by lia. eexists _, _, _.
           split; [by erewrite bind_UB by exact E|]. right. exists ZeroSizeAlloc. split; [done|].
           right. split; [by left|]. split; [|done]. by apply text_empty. }
      all: destruct (shrink_to_ok z8 w v bs 0 Hr) as (r&v1&w1&He&Hr1&Hk&Hcase); [by auto|].
      all: assert (strep w1 v1 cs) as Hs1 by (by exists bs); pose proof (keeps_af _ _ _ _ _ Hk) as Haf.
      all: destruct Hcase as [(->&Hc)|(->&->&Hrf)].
      1,3: erewrite bind_Ret by exact He; eexists _, _, _; ok; exists cs; split; [constructor|]; fine Haf Hs1; lia.
      all: erewrite bind_Panic by exact He; eexists _, _, _; ok; exists cs; split; [by constructor|]; fine Haf Hs1; lia.
    - (* extend chars *)
      unfold str_extend_chars. rewrite bind_assoc.
      destruct (reserve_ok z8 w v bs h Hr) as (r&v1&w1&He&Hk&Hr1&Hcase).
      { intros Hlt. apply fits8. eapply N.le_trans; [apply Ham; [exact Hlt|lia]|lia]. }
      assert (strep w1 v1 cs) as Hs1 by (by exists bs). pose proof (keeps_af _ _ _ _ _ Hk) as Haf.
      destruct Hcase as [(->&_&_&Hle&Hgt)|(->&->&_&Hrf)]; cycle 1.
      { erewrite bind_Panic by exact He. eexists _, _, _. ok. exists cs. split.
        - apply t_chars_no_room. unfold refuses. eauto.
        - fine Haf Hs1. lia. }
      erewrite bind_Ret by exact He.
      assert (vcap v1 <= bound (D + (4 * llen it + h))) as Hcb.
      { destruct (N.le_gt_cases (llen bs + h) (vcap v)) as [H|H];
          [destruct (Hle H) as [-> _]; lia|rewrite (Hgt H); apply Ham; [done|lia]]. }
      destruct (push_chars_ok it w1 v1 cs Hs1 Hargs) as (r&v2&w2&He2&Hcase); [lia|].
      destruct Hcase as [(ds&Hs2&Haf2&Hc2&Hc3&Hcase)|(Hst&->&pre&c&post&->&Hc)]; cycle 1.
      { erewrite bind_UB by exact He2. eexists _, _, _. split; [reflexivity|]. right.
        exists UninitRead. split; [done|]. left. split; [done|]. split; [done|]. right. right.
        exists pre, c, post, h. done. }
      pose proof (af_trans _ _ _ _ _ _ Haf Haf2) as Haf3.
      assert (tlen ds <= 4 * llen it) as Hds.
      { pose proof (tlen_bound ds). destruct Hcase as [(_&->)|[(_&post&->)|(_&_&c&post&->)]];
          rewrite ?app_length, ?fmap_length; lia. }
      destruct Hcase as [(->&->)|[(->&post&->)|(->&Hrf&c&post&->)]].
      + erewrite bind_Ret by exact He2. eexists _, _, _. ok. exists (cs ++ ds). split; [constructor|].
        fine Haf3 Hs2. rewrite tlen_app. lia.
      + erewrite bind_Panic by exact He2. eexists _, _, _. ok. exists (cs ++ ds). split; [constructor|].
        fine Haf3 Hs2. rewrite tlen_app. lia.
      + erewrite bind_Panic by exact He2. eexists _, _, _. ok. exists (cs ++ ds). split; [by constructor|].
        fine Haf3 Hs2. rewrite tlen_app. lia.
    - (* extend strs *)
      destruct (extend_strs_ok it w v cs Hs Hargs) as (r&v2&w2&dss&He2&Hs2&Haf&Hc2&Hc3&Hcase); [lia|].
      assert (tlen (concat dss) <= foldr (fun o n => from_option tlen 0 o + n) 0 it) as Hds.
      { assert (forall post, tlen (concat dss) <=
          foldr (fun o n => from_option tlen 0 o + n) 0 ((Some <$> dss) ++ post)) as H.
        { intros post. clear. induction dss as [|d dss IH]; [simpl; lia|].
          rewrite fmap_cons. simpl. rewrite tlen_app. lia. }
        destruct Hcase as [(_&->)|[(_&post&->)|(_&_&c&post&->)]]; [|apply H|apply H].
        rewrite <-(app_nil_r (Some <$> dss)). apply H. }
      destruct Hcase as [(->&->)|[(->&post&->)|(->&Hrf&c&post&->)]].
      + erewrite bind_Ret by exact He2. eexists _, _, _. ok. eexists. split; [constructor|].
        fine Haf Hs2. rewrite tlen_app. lia.
      + erewrite bind_Panic by exact He2. eexists _, _, _. ok. eexists. split; [constructor|].
        fine Haf Hs2. rewrite tlen_app. lia.
      + erewrite bind_Panic by exact He2. eexists _, _, _. ok. eexists. split; [by constructor|].
        fine Haf Hs2. rewrite tlen_app. lia.
    - (* extend strings *)
      destruct (extend_built_ok it w v cs Hs Hargs) as (r&v2&w2&pre&post&He2&Hit&Hs2&Hv&Hc3&Hcase); [lia|].
      assert (tlen (concat pre) <= foldr (fun ds n => tlen ds + n) 0 it) as Hds.
      { rewrite Hit. clear. induction pre as [|d dss IH]; simpl; [lia|]. rewrite tlen_app. lia. }
      destruct Hcase as [(->&->)|(->&Hrf&Hne)].
      + rewrite app_nil_r in Hit. subst pre.
        erewrite bind_Ret by exact He2. eexists _, _, _. ok. eexists. split; [constructor|].
        split; [exact Hs2|]. split; [done|]. split; [lia|]. rewrite tlen_app. lia.
      + destruct post as [|d post]; [done|].
        erewrite bind_Panic by exact He2. eexists _, _, _. ok. eexists.
        split; [rewrite Hit; by constructor|].
        split; [exact Hs2|]. split; [done|]. split; [lia|]. rewrite tlen_app. lia.
    - (* split_off *)
      destruct (str_split_off_ok w v cs i Hs) as [[Hnb He]|(Hb&r&w1&He&Hs1&Hcase)].
      { erewrite bind_Panic by exact He. eexists _, _, _. ok. exists cs. split; [by constructor|].
        fine (af_refl v w) Hs. lia. }
      destruct Hcase as [(o&->&Ho&Hv&_)|(->&Hh&Hrf)].
      + erewrite bind_Ret by exact He.
        destruct (drop_fresh w w1 v o cs Hs Hs1 Ho Hv) as (w2&He2&Hs2&Hh).
        erewrite bind_on_snd_Ret by exact He2. eexists _, _, _. ok. exists cs. split; [by constructor|].
        split; [exact Hs2|]. split; [unfold vrest; by rewrite Hh|]. split; lia.
      + erewrite bind_Panic by exact He. eexists _, _, _. ok. exists cs. split; [by constructor|].
        split; [exact Hs1|]. split; [unfold vrest; by rewrite Hh|]. split; lia.
    - (* set_scope *)
      eexists _, v, _. ok. exists cs. split; [constructor|]. split.
      { exists bs. split; [done|]. destruct Hr as [Hl [rest (Hw&Ho)]]. split; [done|]. exists rest.
        split; [|exact Ho]. destruct Hw as [_ Hw]. split; [done|exact Hw]. }
      split; [done|]. split; lia.
  Qed.

  (** Every history follows the specification, up to the first unsound call if there is one. *)
  Lemma trun_ok ops : forall D w v cs,
    strep w v cs -> vcap v <= bound D -> tlen cs <= D ->
    bound (D + total_tdemand ops) <= isize_max -> Forall args_ok ops -> Forall not_mut ops ->
    exists outs v' w', trun ops (v, w) = (outs, (v', w')) /\
      ((exists cs', ttrace refuses cs ops outs cs' /\ strep w' v' cs' /\ vrest v' w' = vrest v w /\
          Forall defined outs) \/
       (exists pre op post outs' cs' u, ops = pre ++ op :: post /\ outs = outs' ++ [UB u] /\
          ttrace refuses cs pre outs' cs' /\ tunsound e_strict cs' op u)).
  Proof.
    induction ops as [|op ops IH]; intros D w v cs Hs Hcap Hlen Hfit Hargs Hnm.
    { exists [], v, w. split; [done|]. left. exists cs. split; [constructor|]. split; [done|]. done. }
    simpl in Hfit. apply Forall_cons in Hargs as [Ha Hargs]. apply Forall_cons in Hnm as [Hn Hnm].
    destruct (tstep_ok D op w v cs Hs Hcap Hlen) as (o&v1&w1&He&Hcase); [lia|done|done|].
    destruct Hcase as [(cs1&Hsp&Hs1&Hv1&Hc1&Hl1)|(u&->&Hu)].
    - assert (defined o) as Ho by (unfold defined; destruct Hsp; eauto).
      destruct (IH (D + tdemand op) w1 v1 cs1 Hs1 Hc1 Hl1) as (outs&v2&w2&He2&Hcase); [lia|done|done|].
      exists (o :: outs), v2, w2. split.
      { simpl. rewrite He, He2. by destruct Ho as [[? ->]|[? ->]]. }
      destruct Hcase as [(cs2&Ht&Hs2&Hv2&Hd)|(pre&op'&post&outs'&cs'&u&->&->&Ht&Hu)].
      + left. exists cs2. split; [by econstructor|]. split; [done|]. split; [congruence|by constructor].
      + right. exists (op :: pre), op', post, (o :: outs'), cs', u. split; [done|]. split; [done|].
        split; [by econstructor|done].
    - exists [UB u], v1, w1. split; [simpl; by rewrite He|]. right.
      exists [], op, ops, [], cs, u. split; [done|]. split; [done|]. split; [constructor|done].
  Qed.

  (** How a string starts: [String::new], [String::with_capacity], [String::from_utf8] of a byte
      vector with any history, [String::from_utf16]. *)
  Inductive begins (w0 : W) : vec -> W -> Prop :=
  | begins_new v w1 : str_new w0 = (Ret v, w1) -> begins w0 v w1
  | begins_capacity n v w1 : n <= isize_max -> str_with_capacity n w0 = (Ret v, w1) -> begins w0 v w1
  | begins_utf8 bytes w bs v w1 : reached_from w0 bytes w bs ->
      str_from_utf8 bytes w = (Ret (Some v), w1) -> begins w0 v w1
  | begins_utf16 us v w1 : Forall (fun u => u < 65536) us -> 4 * llen us <= isize_max ->
      str_from_utf16 us w0 = (Ret (Some v), w1) -> begins w0 v w1.

  (** [text_from w0 v w cs]: starting in [w0], the string [v] was created and a history of calls,
      none of them undefined and none through [as_mut_vec], led to [w], where its bytes encode [cs]. *)
  Definition text_from (w0 : W) (v : vec) (w : W) (cs : list N) : Prop :=
    exists v0 w1 ops outs bs, wok w0 /\ begins w0 v0 w1 /\
      N.max (2 * (vcap v0 + total_tdemand ops)) 8 <= isize_max /\
      Forall args_ok ops /\ Forall not_mut ops /\
      trun ops (v0, w1) = (outs, (v, w)) /\ Forall defined outs /\
      vec_as_slice v w = (Ret bs, w) /\ text cs bs.
  Definition has_text (v : vec) (w : W) (cs : list N) : Prop := exists w0, text_from w0 v w cs.

  Lemma begins_strep w0 v w1 : wok w0 -> begins w0 v w1 ->
    exists cs, strep w1 v cs /\ vrest v w1 = heap w0.
  Proof.
    intros Hw [v' w' He|n v' w' Hn He|bytes w bs v' w' Hre He|us v' w' Hus Hl He].
    - destruct (new_born z8 w0 Hw) as (n&w&Hn&Hr1&(Hb1&_)&_&Hc0).
      unfold str_new in He. rewrite Hn in He. injection He as <- <-.
      exists []. split; [|done]. exists []. split; [constructor|done].
    - unfold str_with_capacity in He.
      destruct (with_capacity_ok z8 w0 n Hw) as (r&w2&He2&_&_&_&_&Hcase); [by apply fits8|].
      rewrite He in He2. injection He2 as <- <-.
      destruct Hcase as [(o&Ho&Hr&Hv&_)|(?&_)]; [|done]. injection Ho as <-.
      exists []. split; [|done]. exists []. split; [constructor|done].
    - destruct (reached_from_rep z8 _ _ _ _ Hre) as [Hr Hh].
      destruct (str_from_utf8_ok w bytes bs Hr) as [(cs&Ht&He2)|(_&w2&He2&_)]; rewrite He in He2; [|done].
      injection He2 as <- <-. exists cs. split; [by exists bs|done].
    - destruct (str_from_utf16_ok w0 us Hw Hus Hl) as (r&w2&He2&Hcase).
      rewrite He in He2. injection He2 as <- <-.
      destruct Hcase as [(cs&o&_&Ho&Hs&l&Hb&_)|[(_&?&_)|[(?&_)|(_&?&_)]]]; try done.
      injection Ho as <-. by exists cs.
  Qed.

  Lemma defined_no_ub (outs : list (res (vret N))) :
    Forall defined outs -> forall outs' u, outs <> outs' ++ [UB u].
  Proof.
    intros H outs' u ->. apply Forall_app in H as [_ H]. apply Forall_cons in H as [[[? H]|[? H]] _]; done.
  Qed.

  Lemma text_from_rep w0 v w cs : text_from w0 v w cs -> strep w v cs /\ vrest v w = heap w0.
  Proof.
    intros (v0&w1&ops&outs&bs&Hw&Hb&Hf&Ha&Hm&Hrun&Hd&Hsl&Ht).
    destruct (begins_strep _ _ _ Hw Hb) as (cs0&Hs0&Hv0). pose proof (strep_cap _ _ _ Hs0) as [Hc0 _].
    destruct (trun_ok ops (vcap v0) w1 v0 cs0 Hs0) as (outs'&v'&w'&Hrun'&Hcase); try done; [lia|].
    rewrite Hrun in Hrun'. injection Hrun' as <- <- <-.
    destruct Hcase as [(cs'&Htr&Hs'&Hv'&_)|(pre&op&post&outs'&cs'&u&_&Ho&_)].
    - split; [|congruence]. destruct Hs' as (bs'&Ht'&Hr').
      pose proof (as_slice_ok z8 _ _ _ Hr') as Hsl'. rewrite Hsl in Hsl'. injection Hsl' as <-.
      rewrite (text_inj _ _ _ Ht Ht'). by exists bs.
    - by eapply defined_no_ub in Ho.
  Qed.
  Lemma has_text_rep v w cs : has_text v w cs -> strep w v cs.
  Proof. intros [w0 H]. by eapply text_from_rep. Qed.

  (** An older string is not touched while a newer one is made and used. *)
  Lemma strep_older w0 v cs o w ds : strep w0 v cs -> strep w o ds -> vrest o w = heap w0 ->
    strep w v cs /\ apart v o.
  Proof.
    intros (bs&Ht&[Hl [rest (Hw&Hs&Hb&Hm)]]) Ho Hv. pose proof (strep_wok _ _ _ Ho) as Hw2.
    assert (forall b blk, heap w0 !! b = Some blk -> heap w !! b = Some blk /\
      match vdata o with Blk c => b <> c | _ => True end) as Hlk.
    { intros b blk H. rewrite <-Hv in H. unfold vrest in H. destruct (vdata o) as [|c]; [done|].
      simpl in H. apply lookup_delete_Some in H as [? H]. done. }
    split.
    - exists bs. split; [done|]. split; [done|]. exists rest. split; [done|]. split; [done|]. split; [done|].
      destruct (vdata v) as [|b]; [done|]. destruct Hm as (?&?&Hh). destruct (Hlk _ _ Hh) as [Hh2 _].
      split; [done|]. split; [|done]. destruct Hw2 as [_ Hfr].
      destruct (N.lt_ge_cases b (next_id w)) as [|Hge]; [done|]. specialize (Hfr b Hge). congruence.
    - unfold apart. destruct (vdata v) as [|b]; [done|]. destruct Hm as (_&_&Hh).
      destruct (Hlk _ _ Hh) as [_ Hne]. destruct (vdata o); done.
  Qed.

  (** Several strings, each made after the ones before it. *)
  Inductive all_from : W -> list vec -> W -> list (list N) -> Prop :=
  | all_nil w : all_from w [] w []
  | all_cons w0 v w1 cs l w css : text_from w0 v w1 cs -> all_from w1 l w css ->
      all_from w0 (v :: l) w (cs :: css).

  Lemma all_from_owned l : forall w0 w css, all_from w0 l w css -> owned w l css /\
    forall v cs, strep w0 v cs -> strep w v cs /\ Forall (apart v) l.
  Proof.
    induction l as [|s l IH]; intros w0 w css H.
    - inversion H; subst. split; [constructor|]. intros v cs Hs. by split.
    - inversion H as [|w0' s' w1 cs l' w' css' Hh Ht]; subst.
      destruct (text_from_rep _ _ _ _ Hh) as [Hs Hv]. destruct (IH _ _ _ Ht) as [Ho Hold].
      destruct (Hold _ _ Hs) as [Hs' Ha]. split; [by constructor|].
      intros v ds Hs0. destruct (strep_older _ _ _ _ _ _ Hs0 Hs Hv) as [Hs1 Ha1].
      destruct (Hold _ _ Hs1) as [Hs2 Ha2]. split; [done|by constructor].
  Qed.
End str_run.
