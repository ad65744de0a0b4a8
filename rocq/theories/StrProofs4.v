(** Proofs about [String], continued: extending by owned strings and boxes. *)
From Verif Require Export StrProofs3.
From Coq Require Import ZifyBool ZifyNat ZifyN.
Ltac Zify.zify_post_hook ::= idtac.

Section str4.
  Context {EN : Env}.
  Local Existing Instance u8.
  Notation W := (world N).
  Notation MS := (M (vec * W)).
  Implicit Types (w : W) (v s : vec) (bs : list N) (cs : list N).
  Hint Resolve z8 nd8 : core.

  (** Strings that own distinct storage. *)
  Inductive owned (w : W) : list vec -> list (list N) -> Prop :=
  | owned_nil : owned w [] []
  | owned_cons s l cs css : strep w s cs -> Forall (apart s) l -> owned w l css ->
      owned w (s :: l) (cs :: css).
  (** The heap without their storage. *)
  Fixpoint without (h : gmap N (block N)) (l : list vec) : gmap N (block N) :=
    match l with [] => h | s :: l => without (delete_ptr (vdata s) h) l end.
  Definition gone_all (l : list vec) (w w' : W) : Prop :=
    heap w' = without (heap w) l /\ (exists ds, drops w' = drops w ++ ds) /\
    cur_scope w' = cur_scope w /\ next_id w <= next_id w' /\ wok w'.

  Lemma minus_delete l : forall p h, without (delete_ptr p h) l = delete_ptr p (without h l).
  Proof.
    induction l as [|s l IH]; intros p h; [done|]. simpl. by rewrite delete_ptr_comm, IH.
  Qed.
  Lemma minus_lookup l : forall h b blk,
    Forall (fun s => match vdata s with Blk c => b <> c | _ => True end) l ->
    h !! b = Some blk -> without h l !! b = Some blk.
  Proof.
    induction l as [|s l IH]; intros h b blk Hl Hb; [done|]. apply Forall_cons in Hl as [Hs Hl].
    simpl. apply IH; [done|]. destruct (vdata s); simpl; [done|]. by rewrite lookup_delete_ne.
  Qed.
  Lemma gone_all_other w v cs l w' : strep w v cs -> Forall (apart v) l -> gone_all l w w' ->
    strep w' v cs.
  Proof.
    intros (bs&Ht&Hl&rest&(Hw&Hs&Hb&Hd)) Ha (Hh&_&Hc&Hn&Hw'). exists bs. split; [done|].
    split; [done|]. exists rest. unfold owns. destruct (vdata v) as [|b] eqn:Ev; [by split_and!|].
    destruct Hd as (H1&H2&H3). split_and!; try done; [lia|]. rewrite Hh.
    apply minus_lookup; [|done]. eapply Forall_impl; [exact Ha|]. intros s Hs'.
    unfold apart in Hs'. by rewrite Ev in Hs'.
  Qed.
  Lemma gone_all_cons w s l w1 w2 ds : gone s w w1 ds -> gone_all l w1 w2 -> gone_all (s :: l) w w2.
  Proof.
    intros (Hh&Hd&Hc&Hn&Hw) (Hh'&(ds'&Hd')&Hc'&Hn'&Hw'). unfold gone_all. simpl. unfold vrest in Hh.
    split; [congruence|]. split; [exists (ds ++ ds'); rewrite Hd', Hd; by rewrite app_assoc|].
    split; [congruence|]. split; [lia|done].
  Qed.

  Lemma owned_frame w v w' v' l css cs' : owned w l css -> Forall (apart v) l ->
    apart_from v w v' w' -> strep w' v' cs' -> owned w' l css /\ Forall (apart v') l.
  Proof.
    intros Ho Ha Haf Hs. induction Ho as [|s l cs css Hst Hal Ho IH]; [split; constructor|].
    apply Forall_cons in Ha as [Ha Hl]. destruct (IH Hl) as [Ho' Ha'].
    destruct (strep_frame w v w' v' s cs cs' Hst Ha Haf Hs) as [Hst' Has].
    split; by constructor.
  Qed.
  Lemma owned_gone w o w' l css ds : owned w l css -> Forall (apart o) l -> gone o w w' ds ->
    owned w' l css.
  Proof.
    intros Ho Ha Hg. induction Ho as [|s l cs css Hst Hal Ho IH]; [constructor|].
    apply Forall_cons in Ha as [Ha Hl]. constructor; [|done|by apply IH].
    eapply strep_gone; [exact Hst|by apply apart_sym|exact Hg].
  Qed.

  Lemma drop_strings_ok l : forall w css, wok w -> owned w l css ->
    exists w', drop_strings l w = (Ret tt, w') /\ gone_all l w w'.
  Proof.
    induction l as [|s l IH]; intros w css Hw Ho; inversion Ho as [|? ? cs css' Hst Hal Ho']; subst.
    - exists w. split; [done|]. split; [done|]. split; [exists []; by rewrite app_nil_r|].
      split; [done|]. split; [lia|done].
    - simpl. destruct (str_drop_ok w s cs Hst) as (w1&bs&He&Hg). erewrite bind_Ret by exact He.
      destruct (IH w1 css') as (w2&He2&Hg2).
      { by destruct Hg as (_&_&_&_&?). } { by eapply owned_gone. }
      exists w2. split; [exact He2|]. by eapply gone_all_cons.
  Qed.

  Lemma drop_boxes_ok l : forall w css, wok w -> owned w (str_from_box <$> l) css ->
    Forall (fun cs => cs <> []) css ->
    exists w', drop_boxes l w = (Ret tt, w') /\ gone_all (str_from_box <$> l) w w'.
  Proof.
    induction l as [|b l IH]; intros w css Hw Ho Hne; inversion Ho as [|? ? cs css' Hst Hal Ho']; subst.
    - exists w. split; [done|]. split; [done|]. split; [exists []; by rewrite app_nil_r|].
      split; [done|]. split; [lia|done].
    - apply Forall_cons in Hne as [Hn Hne]. simpl. destruct Hst as (bs&Ht&Hr).
      assert (sp_len b = llen bs) as Hlb by (exact (proj1 Hr)).
      assert (box_rep w b bs) as Hbox.
      { split; [done|]. split; [|by rewrite <-Hlb]. intros ->. apply text_empty in Ht. done. }
      assert (Hdg : drops_glue false bs = (bs, Ret tt)).
      { clear. induction bs as [|x bs IH]; [done|]. simpl. by rewrite IH. }
      destruct (box_drop_slice_ok z8 w b bs Hbox) as (w1&He&Hg); [by rewrite Hdg|].
      erewrite bind_Ret by exact He.
      assert (gone (str_from_box b) w w1 bs) as Hg1.
      { rewrite Hdg in Hg. rewrite <-Hlb in Hg. exact Hg. }
      destruct (IH w1 css') as (w2&He2&Hg2); [by destruct Hg as (_&_&_&_&?)|by eapply owned_gone|done|].
      exists w2. split; [exact He2|]. by eapply gone_all_cons.
  Qed.

  (** The loop over items that exist already. *)
  Section items.
    Context {I : Type} (conv : I -> vec) (drop_items : list I -> M W unit) (good : list N -> Prop).
    Context (Hdrop : forall l w css, refuses -> wok w -> owned w (conv <$> l) css -> Forall good css ->
      exists w', drop_items l w = (Ret tt, w') /\ gone_all (conv <$> l) w w').

    Lemma push_items_ok l : forall w v cs css,
      strep w v cs -> owned w (conv <$> l) css -> Forall (apart v) (conv <$> l) -> Forall good css ->
      tlen cs + tlen (concat css) <= isize_max ->
      exists r v' w' pre post, push_items (fun i => ret (conv i)) drop_items l (v, w) = (r, (v', w')) /\
        css = pre ++ post /\ strep w' v' (cs ++ concat pre) /\
        vrest v' w' = without (vrest v w) (conv <$> l) /\
        ((r = Ret tt /\ post = []) \/ (r = Panic PUnwrap /\ refuses /\ post <> [])).
    Proof.
      induction l as [|i l IH]; intros w v cs css Hs Ho Ha Hg Hf;
        inversion Ho as [|? ? ds css' Hst Hal Ho']; subst; simpl.
      - exists (Ret tt), v, w, [], []. split; [done|]. split; [done|]. rewrite app_nil_r.
        split; [done|]. split; [done|]. by left.
      - simpl in Ha, Hf. apply Forall_cons in Ha as [Ha Hl]. apply Forall_cons in Hg as [Hg Hgs].
        rewrite tlen_app in Hf.
        erewrite (bind_Ret _ _ _ (conv i)).
        2: { apply on_unwind_Ret. by apply on_snd_Ret. }
        pose proof Hst as (db&Htd&Hrd).
        destruct (str_push_str_ok w v cs ds db Hs Htd) as (r1&v1&w1&He&Haf&Hc1&Hc2&Hcase); [lia|].
        assert (Hbody : (bs <- on_snd (vec_as_slice (conv i)); str_push_str bs) (v, w) = (r1, (v1, w1))).
        { erewrite bind_on_snd_Ret by (by apply (as_slice_ok z8)). exact He. }
        pose proof (af_rest _ _ _ _ Haf) as Hvr.
        assert (strep w1 v1 (cs ++ ds) \/ strep w1 v1 cs) as Hany by (destruct Hcase as [(_&?)|(_&->&?&_)]; auto).
        assert (exists x, strep w1 v1 x) as [x Hsx] by (destruct Hany; eauto).
        destruct (strep_frame w v w1 v1 (conv i) ds x Hst Ha Haf Hsx) as [Hst1 Ha1].
        destruct (owned_frame w v w1 v1 (conv <$> l) css' x Ho' Hl Haf Hsx) as [Ho1 Hl1].
        destruct (str_drop_ok w1 (conv i) ds Hst1) as (w2&b2&He2&Hg2).
        assert (owned w2 (conv <$> l) css') as Ho2 by exact (owned_gone _ _ _ _ _ _ Ho1 Hal Hg2).
        assert (wok w2) as Hw2 by (by destruct Hg2 as (_&_&_&_&?)).
        assert (vrest v1 w2 = delete_ptr (vdata (conv i)) (vrest v w)) as Hvr2.
        { destruct Hg2 as (Hh&_). unfold vrest at 1. rewrite Hh. unfold vrest at 1.
          rewrite delete_ptr_comm. fold (vrest v1 w1). by rewrite Hvr. }
        destruct Hcase as [(->&Hs1)|(->&->&Hs1&Hrf)].
        + erewrite (bind_Ret _ _ _ tt (v1, w1)) by (by apply on_unwind_Ret).
          erewrite (bind_Ret _ _ _ tt (v1, w2)).
          2: { apply on_unwind_Ret. by apply on_snd_Ret. }
          assert (strep w2 v1 (cs ++ ds)) as Hs2 by (by eapply strep_gone).
          destruct (IH w2 v1 (cs ++ ds) css' Hs2 Ho2 Hl1 Hgs) as (r&v3&w3&pre&post&He3&->&Hs3&Hv3&Hcase).
          { rewrite tlen_app. lia. }
          exists r, v3, w3, (ds :: pre), post. split; [exact He3|]. split; [done|].
          simpl. rewrite <-app_assoc in Hs3. split; [done|]. split; [|done].
          by rewrite Hv3, Hvr2.
        + assert (strep w2 v cs) as Hs2 by (by eapply strep_gone).
          destruct (Hdrop l w2 css' Hrf Hw2 Ho2 Hgs) as (w3&He3&Hg3).
          assert (strep w3 v cs) as Hs3 by (by eapply gone_all_other).
          exists (Panic PUnwrap), v, w3, [], (ds :: css'). split.
          { erewrite bind_Panic; [reflexivity|]. eapply on_unwind_Panic; [exact Hbody|].
            erewrite bind_on_snd_Ret by exact He2. by apply on_snd_Ret. }
          split; [done|]. rewrite app_nil_r. split; [done|]. split; [|by right].
          destruct Hg3 as (Hh3&_). unfold vrest at 1. rewrite Hh3.
          change (delete_ptr (vdata v) (without (heap w2) (conv <$> l)) =
            without (delete_ptr (vdata (conv i)) (vrest v w)) (conv <$> l)).
          rewrite <-minus_delete. by rewrite <-Hvr2.
    Qed.

    Lemma extend_items_ok l w v cs css :
      strep w v cs -> owned w (conv <$> l) css -> Forall (apart v) (conv <$> l) -> Forall good css ->
      tlen cs + tlen (concat css) <= isize_max ->
      exists r v' w' pre post, str_extend_items (fun i => ret (conv i)) drop_items l (v, w) = (r, (v', w')) /\
        css = pre ++ post /\ strep w' v' (cs ++ concat pre) /\
        vrest v' w' = without (vrest v w) (conv <$> l) /\
        ((r = Ret tt /\ post = []) \/ (r = Panic PUnwrap /\ refuses /\ post <> [])).
    Proof.
      intros Hs Ho Ha Hg Hf. unfold str_extend_items. rewrite bind_get_fst.
      destruct (N.eqb_spec (vcap v) 0) as [H0|H0]; [|by eapply push_items_ok].
      pose proof (strep_cap _ _ _ Hs) as [Hc _].
      assert (cs = []) as -> by (pose proof (tlen_ge cs); destruct cs; [done|simpl in *; lia]).
      destruct l as [|i l].
      { inversion Ho; subst. exists (Ret tt), v, w, [], []. split; [done|]. split; [done|].
        split; [done|]. split; [done|]. by left. }
      simpl in Ha, Ho. inversion Ho as [|? ? ds css' Hst Hal Ho']; subst.
      apply Forall_cons in Ha as [Ha Hl]. apply Forall_cons in Hg as [Hg Hgs].
      erewrite (bind_Ret _ _ _ (conv i)).
      2: { apply on_unwind_Ret. by apply on_snd_Ret. }
      destruct (str_drop_ok w v [] Hs) as (w1&b&He&Hg1). erewrite bind_on_snd_Ret by exact He.
      rewrite bind_put_fst.
      assert (strep w1 (conv i) ds) as Hst1 by (eapply strep_gone; [exact Hst|by apply apart_sym|done]).
      assert (owned w1 (conv <$> l) css') as Ho1 by exact (owned_gone _ _ _ _ _ _ Ho' Hl Hg1).
      destruct (push_items_ok l w1 (conv i) ds css' Hst1 Ho1 Hal Hgs) as (r&v3&w3&pre&post&He3&->&Hs3&Hv3&Hcase).
      { simpl in Hf. rewrite tlen_app in Hf. lia. }
      exists r, v3, w3, (ds :: pre), post. split; [exact He3|]. split; [done|]. split; [done|].
      split; [|done]. rewrite Hv3. destruct Hg1 as (Hh&_). unfold vrest at 1. rewrite Hh. done.
    Qed.
  End items.

  Lemma extend_strings_ok l w v cs css :
    strep w v cs -> owned w l css -> Forall (apart v) l -> tlen cs + tlen (concat css) <= isize_max ->
    exists r v' w' pre post, str_extend_strings l (v, w) = (r, (v', w')) /\
      css = pre ++ post /\ strep w' v' (cs ++ concat pre) /\ vrest v' w' = without (vrest v w) l /\
      ((r = Ret tt /\ post = []) \/ (r = Panic PUnwrap /\ refuses /\ post <> [])).
  Proof.
    intros Hs Ho Ha Hf. pose proof (extend_items_ok (I:=vec) (fun s => s) drop_strings (fun _ => True)) as H.
    rewrite <-(list_fmap_id l) in Ho, Ha.
    destruct (H) with (l := l) (w := w) (v := v) (cs := cs) (css := css)
      as (r&v'&w'&pre&post&He&Hc&Hs'&Hv&Hcase); try done.
    - intros l' w' css' _ Hw' Ho' _. change (drop_strings l') with (drop_strings l').
      assert ((fun s : vec => s) <$> l' = l') as E by apply list_fmap_id. rewrite E in *.
      by eapply drop_strings_ok.
    - by apply Forall_true.
    - exists r, v', w', pre, post. assert ((fun s : vec => s) <$> l = l) as E by apply list_fmap_id.
      rewrite E in Hv. done.
  Qed.
  Lemma extend_boxes_ok l w v cs css :
    strep w v cs -> owned w (str_from_box <$> l) css -> Forall (apart v) (str_from_box <$> l) ->
    (refuses -> Forall (fun cs => cs <> []) css) -> tlen cs + tlen (concat css) <= isize_max ->
    exists r v' w' pre post, str_extend_boxes l (v, w) = (r, (v', w')) /\
      css = pre ++ post /\ strep w' v' (cs ++ concat pre) /\
      vrest v' w' = without (vrest v w) (str_from_box <$> l) /\
      ((r = Ret tt /\ post = []) \/ (r = Panic PUnwrap /\ refuses /\ post <> [])).
  Proof.
    intros Hs Ho Ha Hne Hf.
    eapply (extend_items_ok str_from_box drop_boxes (fun cs => refuses -> cs <> [])); try done.
    - intros l' w' css' Hrf Hw' Ho' Hne'. eapply drop_boxes_ok; [done|exact Ho'|].
      eapply Forall_impl; [exact Hne'|]. auto.
    - apply Forall_forall. intros c Hc Hrf. specialize (Hne Hrf). rewrite Forall_forall in Hne. auto.
  Qed.

  (** Items made on demand. *)
  Notation sum dss := (foldr (fun ds n => tlen ds + n) 0 dss).
  Lemma push_built_ok dss : forall w v cs,
    strep w v cs -> Forall (Forall scalar) dss -> tlen cs + sum dss <= isize_max ->
    exists r v' w' pre post,
      push_items str_build (fun _ => ret tt) (encode_all <$> dss) (v, w) = (r, (v', w')) /\
      dss = pre ++ post /\ strep w' v' (cs ++ concat pre) /\ vrest v' w' = vrest v w /\
      vcap v <= vcap v' /\ vcap v' <= N.max (vcap v) (tlen cs + sum dss) /\
      ((r = Ret tt /\ post = []) \/ (r = Panic PUnwrap /\ refuses /\ post <> [])).
  Proof.
    induction dss as [|ds dss IH]; intros w v cs Hs Hsc Hf; simpl.
    - exists (Ret tt), v, w, [], []. split; [done|]. split; [done|]. rewrite app_nil_r.
      split; [done|]. split; [done|]. split; [lia|]. split; [lia|]. by left.
    - apply Forall_cons in Hsc as [Hd Hsc]. simpl in Hf.
      destruct (str_build_ok w ds (strep_wok _ _ _ Hs) Hd) as (r0&w0&He0&Hcase0); [lia|].
      pose proof Hs as (bs0&Ht0&Hr0).
      destruct Hcase0 as [(s&->&Hss&(bl&Hb)&Hcs)|(->&(bl&Hstill)&Hrf)]; cycle 1.
      { exists (Panic PUnwrap), v, w0, [], (ds :: dss). split.
        { erewrite bind_Panic; [reflexivity|]. eapply on_unwind_Panic; [by apply on_snd_Ret|done]. }
        split; [done|]. rewrite app_nil_r. destruct Hstill as (Hh&_&Hc&Hn&Hw).
        split.
        { exists bs0. split; [done|]. destruct Hr0 as [Hl [rest (Hw0&Hs0&Hb0&Hd0)]]. split; [done|].
          exists rest. unfold owns. split_and!; try done. destruct (vdata v); [done|].
          destruct Hd0 as (?&?&?). split_and!; try done; [lia|]. by rewrite Hh. }
        split; [unfold vrest; by rewrite Hh|]. split; [lia|]. split; [lia|]. by right. }
      erewrite (bind_Ret _ _ _ s).
      2: { apply on_unwind_Ret. by apply on_snd_Ret. }
      pose proof Hss as (sb&Hts&Hrs).
      destruct (born_other z8 w v bs0 s w0 bl sb Hr0 Hb Hrs) as [Hrv Hav].
      assert (strep w0 v cs) as Hs0 by (by exists bs0).
      assert (vrest v w0 = vrest v w \/ True) as _ by by right.
      destruct (str_push_str_ok w0 v cs ds sb Hs0 Hts) as (r1&v1&w1&He&Haf&Hc1&Hc2&Hcase); [lia|].
      assert (Hbody : (bs <- on_snd (vec_as_slice s); str_push_str bs) (v, w0) = (r1, (v1, w1))).
      { erewrite bind_on_snd_Ret by (by apply (as_slice_ok z8)). exact He. }
      assert (exists x, strep w1 v1 x) as [x Hsx] by (destruct Hcase as [(_&?)|(_&->&?&_)]; eauto).
      destruct (strep_frame w0 v w1 v1 s ds x Hss Hav Haf Hsx) as [Hst1 Ha1].
      destruct (str_drop_ok w1 s ds Hst1) as (w2&b2&He2&Hg2).
      assert (vrest v1 w2 = vrest v w) as Hvr2.
      { destruct Hg2 as (Hh&_). unfold vrest at 1. rewrite Hh. unfold vrest at 1.
        rewrite delete_ptr_comm. fold (vrest v1 w1). rewrite (af_rest _ _ _ _ Haf).
        destruct Hb as (Hb&_). unfold vrest in Hb |- *. by rewrite delete_ptr_comm, Hb. }
      destruct Hcase as [(->&Hs1)|(->&->&Hs1&Hrf)].
      + erewrite (bind_Ret _ _ _ tt (v1, w1)) by (by apply on_unwind_Ret).
        erewrite (bind_Ret _ _ _ tt (v1, w2)).
        2: { apply on_unwind_Ret. by apply on_snd_Ret. }
        assert (strep w2 v1 (cs ++ ds)) as Hs2 by (by eapply strep_gone).
        destruct (IH w2 v1 (cs ++ ds) Hs2 Hsc) as (r&v3&w3&pre&post&He3&->&Hs3&Hv3&Hc3&Hc4&Hcase).
        { rewrite tlen_app. lia. }
        rewrite tlen_app in Hc4.
        exists r, v3, w3, (ds :: pre), post. split; [exact He3|]. split; [done|].
        simpl. rewrite <-app_assoc in Hs3. split; [done|]. split; [congruence|].
        split; [lia|]. split; [lia|done].
      + assert (strep w2 v cs) as Hs2 by (by eapply strep_gone).
        exists (Panic PUnwrap), v, w2, [], (ds :: dss). split.
        { erewrite bind_Panic; [reflexivity|]. eapply on_unwind_Panic; [exact Hbody|].
          erewrite bind_on_snd_Ret by exact He2. done. }
        split; [done|]. rewrite app_nil_r. split; [done|]. split; [done|].
        split; [lia|]. split; [lia|]. by right.
  Qed.

  Lemma extend_built_ok dss w v cs :
    strep w v cs -> Forall (Forall scalar) dss -> tlen cs + sum dss <= isize_max ->
    exists r v' w' pre post, str_extend_built (encode_all <$> dss) (v, w) = (r, (v', w')) /\
      dss = pre ++ post /\ strep w' v' (cs ++ concat pre) /\ vrest v' w' = vrest v w /\
      vcap v' <= N.max (vcap v) (tlen cs + sum dss) /\
      ((r = Ret tt /\ post = []) \/ (r = Panic PUnwrap /\ refuses /\ post <> [])).
  Proof.
    intros Hs Hsc Hf. unfold str_extend_built, str_extend_items. rewrite bind_get_fst.
    destruct (N.eqb_spec (vcap v) 0) as [H0|H0]; cycle 1.
    { destruct (push_built_ok dss w v cs Hs Hsc Hf) as (r&v'&w'&pre&post&?&?&?&?&?&?&?).
      exists r, v', w', pre, post. done. }
    pose proof (strep_cap _ _ _ Hs) as [Hc _].
    assert (cs = []) as -> by (pose proof (tlen_ge cs); destruct cs; [done|simpl in *; lia]).
    destruct dss as [|ds dss].
    { exists (Ret tt), v, w, [], []. simpl. split; [done|]. split; [done|].
      split; [done|]. split; [done|]. split; [lia|]. by left. }
    apply Forall_cons in Hsc as [Hd Hsc]. simpl in Hf. simpl.
    destruct (str_build_ok w ds (strep_wok _ _ _ Hs) Hd) as (r0&w0&He0&Hcase0); [lia|].
    pose proof Hs as (bs0&Ht0&Hr0).
    destruct Hcase0 as [(s&->&Hss&(bl&Hb)&Hcs)|(->&(bl&Hstill)&Hrf)]; cycle 1.
    { exists (Panic PUnwrap), v, w0, [], (ds :: dss). split.
      { erewrite bind_Panic; [reflexivity|]. eapply on_unwind_Panic; [by apply on_snd_Ret|done]. }
      split; [done|]. simpl. destruct Hstill as (Hh&_&Hcu&Hn&Hw).
      split.
      { exists bs0. split; [done|]. destruct Hr0 as [Hl [rest (Hw0&Hs0&Hb0&Hd0)]]. split; [done|].
        exists rest. unfold owns. split_and!; try done. destruct (vdata v); [done|].
        destruct Hd0 as (?&?&?). split_and!; try done; [lia|]. by rewrite Hh. }
      split; [unfold vrest; by rewrite Hh|]. split; [lia|]. by right. }
    erewrite (bind_Ret _ _ _ s).
    2: { apply on_unwind_Ret. by apply on_snd_Ret. }
    pose proof Hss as (sb&Hts&Hrs).
    destruct (born_other z8 w v bs0 s w0 bl sb Hr0 Hb Hrs) as [Hrv Hav].
    assert (strep w0 v []) as Hs0 by (by exists bs0).
    destruct (str_drop_ok w0 v [] Hs0) as (w1&b&He&Hg1). erewrite bind_on_snd_Ret by exact He.
    rewrite bind_put_fst.
    assert (strep w1 s ds) as Hst1 by (eapply strep_gone; [exact Hss|by apply apart_sym|done]).
    destruct (push_built_ok dss w1 s ds Hst1 Hsc) as (r&v3&w3&pre&post&He3&->&Hs3&Hv3&Hc3&Hc4&Hcase).
    { lia. }
    exists r, v3, w3, (ds :: pre), post. split; [exact He3|]. split; [done|]. split; [done|].
    split; [|split; [|done]].
    - rewrite Hv3. destruct Hg1 as (Hh&_). unfold vrest at 1. rewrite Hh.
      destruct Hb as (Hb&_). unfold vrest in *. by rewrite delete_ptr_comm, Hb.
    - simpl. lia.
  Qed.

  (** [collect]: filling a new string. *)
  Lemma str_collect_ok fill w (P : res unit -> list N -> Prop) : wok w ->
    (forall w1 v, strep w1 v [] -> vcap v = 0 -> cur_scope w1 = cur_scope w ->
      exists r v' w' cs, fill (v, w1) = (r, (v', w')) /\ strep w' v' cs /\ vrest v' w' = vrest v w1 /\
        P r cs /\ (r = Ret tt \/ exists p, r = Panic p)) ->
    exists r w', str_collect fill w = (r, w') /\
      ((exists v cs, r = Ret v /\ P (Ret tt) cs /\ strep w' v cs /\ vrest v w' = heap w) \/
       (exists p cs, r = Panic p /\ P (Panic p) cs /\ heap w' = heap w)).
  Proof.
    intros Hw Hfill. unfold str_collect, str_new.
    destruct (new_born z8 w Hw) as (n&w1&Hn&Hr1&Hb1&Hdg&Hc0). erewrite bind_Ret by exact Hn.
    assert (strep w1 n []) as Hs1 by (exists []; split; [constructor|done]).
    destruct (Hfill w1 n Hs1 Hc0) as (r&v'&w'&cs&He&Hs'&Hv'&HP&Hr); [by destruct Hb1 as (_&_&?&_)|].
    destruct Hb1 as (Hb1&_).
    destruct Hr as [->|[p ->]].
    - erewrite bind_Ret by (by apply with_local_Ret). eexists _, _. split; [reflexivity|]. left.
      exists v', cs. split; [done|]. split; [done|]. split; [done|]. congruence.
    - destruct Hs' as (bs'&_&Hr'). destruct (vec_drop_gone z8 w' v' bs' Hr' nd8) as (w2&Hd2&Hg).
      erewrite bind_Panic.
      2: { eapply with_local_Panic; [exact He|exact Hd2]. }
      eexists _, _. split; [reflexivity|]. right. exists p, cs. split; [done|]. split; [done|].
      destruct Hg as (Hh&_). congruence.
  Qed.

  (** [+] *)
  Lemma str_add_ok w v cs ds (s : list N) : strep w v cs -> text ds s -> tlen cs + tlen ds <= isize_max ->
    exists r w', str_add v s w = (r, w') /\
      ((exists v', r = Ret v' /\ strep w' v' (cs ++ ds) /\ apart_from v w v' w') \/
       (r = Panic PUnwrap /\ refuses /\ heap w' = vrest v w)).
  Proof.
    intros Hs Ht Hf. unfold str_add.
    destruct (str_push_str_ok w v cs ds s Hs Ht Hf) as (r1&v1&w1&He&Haf&_&_&Hcase).
    destruct Hcase as [(->&Hs1)|(->&->&Hs1&Hrf)].
    - erewrite bind_Ret by (by apply with_local_Ret). eexists _, _. split; [reflexivity|]. left.
      exists v1. done.
    - destruct Hs1 as (bs'&_&Hr'). destruct (vec_drop_gone z8 w1 v bs' Hr' nd8) as (w2&Hd2&Hg).
      erewrite bind_Panic.
      2: { eapply with_local_Panic; [exact He|exact Hd2]. }
      eexists _, _. split; [reflexivity|]. right. split; [done|]. split; [done|].
      destruct Hg as (Hh&_). rewrite Hh. by apply af_rest.
  Qed.
End str4.
