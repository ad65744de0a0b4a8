(** Vectors that a program can build, described only by the calls that were made. *)
From Verif Require Export VecProofs9 LogProofs.
From Coq Require Import ZifyBool ZifyNat ZifyN.

Section reach.
  Context {EN : Env} {T : Type} {EL : Elem T}.
  Notation W := (world T).

  (** The call returned or panicked (it was not undefined and did not abort). *)
  Definition defined {A} (r : res A) : Prop := (exists a, r = Ret a) \/ (exists p, r = Panic p).

  (** The calls that are undefined, and how, when the vector shows [xs]: [swap_remove] of the last
      of several elements, and shrinking away all memory of an empty vector. *)
  Definition unsound (xs : list T) (op : vop T) (u : ub) : Prop :=
    (op = OSwapRemove (llen xs - 1) /\ 2 <= llen xs /\ u = Overlap /\ e_strict = true) \/
    ((op = OShrinkToFit \/ op = OShrinkTo 0) /\ xs = [] /\ u = ZeroSizeAlloc).

  (** [reached_from w0 v w xs]: starting in [w0], the vector [v] was created by [Vec::new] and a
      history of calls, none of them undefined, led to the world [w], in which [v] shows the
      elements [xs].  The history asked for at most half of the largest possible array. *)
  Definition reached_from (w0 : W) (v : vec) (w : W) (xs : list T) : Prop :=
    exists v0 w1 ops outs, wok w0 /\
      N.max (2 * total_demand ops) 8 * t_size <= isize_max + 1 - t_align /\
      vec_new w0 = (Ret v0, w1) /\ vrun ops (v0, w1) = (outs, (v, w)) /\ Forall defined outs /\
      vec_as_slice v w = (Ret xs, w).
  Definition reached (v : vec) (w : W) (xs : list T) : Prop := exists w0, reached_from w0 v w xs.

  (** [pushed l v w]: [v] was created and the elements [l] were pushed, nothing else happened. *)
  Definition pushed (l : list T) (v : vec) (w : W) : Prop :=
    exists w0 v0 w1, wok w0 /\ fits (llen l) /\ vec_new w0 = (Ret v0, w1) /\
      vrun (OPush <$> l) (v0, w1) = (replicate (length l) (Ret RUnit), (v, w)).

  (** The capacity a vector reports is backed by memory of exactly that size. *)
  Definition backed (w : W) (v : vec) : Prop :=
    vcap v = 0 \/
    exists b blk, vdata v = Blk b /\ heap w !! b = Some blk /\
      b_alloc blk = sp_alloc (v_ptr v) /\ b_layout blk = Layout (vcap v * t_size) t_align /\
      llen (b_slots blk) = vcap v.

  Context (Hz : 0 < t_size).

  Lemma swap_remove_last_strict w v xs :
    rep w v xs -> 2 <= llen xs -> e_strict = true ->
    fst (vec_swap_remove (llen xs - 1) (v, w)) = UB Overlap.
  Proof.
    intros Hr Hl Hs. pose proof Hr as [Hlen _]. unfold vec_swap_remove.
    rewrite bind_get_fst, Hlen, bind_assert by lia.
    destruct (N.eqb_spec (llen xs) 1); [lia|]. rewrite bind_usub by lia.
    destruct (xs !! N.to_nat (llen xs - 1)) as [x|] eqn:Hx.
    2: { apply lookup_ge_None in Hx. lia. }
    erewrite bind_on_snd_Ret by (by apply (read_rep Hz w v xs)).
    erewrite bind_UB; [done|]. apply on_snd_Ret. unfold copy_nonoverlapping.
    destruct (N.eqb_spec t_size 0); [lia|]. change (1 =? 0) with false. simpl orb. cbn iota.
    unfold assume. rewrite Hs, bool_decide_eq_true_2 by done. simpl.
    replace (llen xs - 1 + 1 <=? llen xs - 1) with false by lia. done.
  Qed.

  Notation bound D := (N.max (2 * D) 8).

  (** Every history follows the specification, up to the first unsound call or the first abort if
      there is one. *)
  Definition ran (ops : list (vop T)) w v xs : Prop :=
    exists outs v' w', vrun ops (v, w) = (outs, (v', w')) /\
      ((exists ins xs' ds, dtrace drop_panics refuses t_clone xs ops ins outs xs' ds /\ rep w' v' xs' /\
          after w v w' v' ds /\ Forall defined outs) \/
       (exists pre op post ins outs' xs' ds o, ops = pre ++ op :: post /\ outs = outs' ++ [o] /\
          dtrace drop_panics refuses t_clone xs pre ins outs' xs' ds /\
          ((exists u, o = UB u /\ unsound xs' op u) \/
           (o = Abort /\ exists i xs2 d2, dspec drop_panics refuses t_clone xs' op i o xs2 d2)))).

  Lemma settle_defined {A} (o : res A) (ds : list T) :
    defined o -> settle drop_panics o ds <> Abort -> defined (settle drop_panics o ds).
  Proof.
    unfold settle, defined. intros [[a ->]|[p ->]] H;
      destruct (culprits drop_panics ds) as [|? []]; eauto; done.
  Qed.

  Lemma run_gen ops : forall D w v xs,
    rep w v xs -> vcap v <= bound D -> llen xs <= D ->
    fits (bound (D + total_demand ops)) -> ran ops w v xs.
  Proof.
    induction ops as [|op ops IH]; intros D w v xs Hr Hcap Hlen Hfit.
    { exists [], v, w. split; [done|]. left. exists [], xs, []. split_and!; [constructor|done| |done].
      split; [done|by rewrite app_nil_r]. }
    simpl in Hfit.
    assert (Hgo : forall o i1 v1 w1 xs1 d1, vexec op (v, w) = (o, (v1, w1)) -> defined o ->
      dspec drop_panics refuses t_clone xs op i1 o xs1 d1 -> rep w1 v1 xs1 -> after w v w1 v1 d1 ->
      vcap v1 <= bound (D + demand op) -> llen xs1 <= D + demand op -> ran (op :: ops) w v xs).
    { intros o i1 v1 w1 xs1 d1 He Ho Hs Hr1 Ha1 Hc1 Hl1.
      destruct (IH (D + demand op) w1 v1 xs1) as (outs&v2&w2&He2&Hcase); try done.
      { by rewrite <-N.add_assoc. }
      assert (o <> Abort) as Hna by (destruct Ho as [[? ->]|[? ->]]; done).
      exists (o :: outs), v2, w2. split.
      { simpl. rewrite He, He2. by destruct Ho as [[? ->]|[? ->]]. }
      destruct Hcase as [(ins&xs2&d2&Ht&Hr2&Ha2&Hd)|(pre&op'&post&ins&outs'&xs2&d2&o'&->&->&Ht&Hu)].
      - left. exists (i1 ++ ins), xs2, (d1 ++ d2). split_and!; [by econstructor|done| |by constructor].
        destruct Ha1 as [Ha Hb], Ha2 as [Hc Hd']. split; [congruence|]. rewrite Hd', Hb. by rewrite app_assoc.
      - right. exists (op :: pre), op', post, (i1 ++ ins), (o :: outs'), xs2, (d1 ++ d2), o'.
        split_and!; try done. by econstructor. }
    assert (Hstop : forall u st, vexec op (v, w) = (UB u, st) -> unsound xs op u -> ran (op :: ops) w v xs).
    { intros u [v1 w1] He Hu. exists [UB u], v1, w1. split; [simpl; by rewrite He|]. right.
      exists [], op, ops, [], [], xs, [], (UB u). split_and!; try done; [constructor|eauto]. }
    assert (Hsound : sound_call e_strict xs op -> ran (op :: ops) w v xs).
    { intros Hs. destruct (step_gen Hz D op w v xs)
        as [(o&i1&v1&w1&xs1&d1&He&Hs1&Hcl&Hrest)|(->&Hcu&w1&He&Hr1&Ha1)]; try done.
      { eapply (fits_le Hz); [|exact Hfit]. lia. }
      - assert (dspec drop_panics refuses t_clone xs op i1 (settle drop_panics o d1) xs1 d1) as Hd
          by (by constructor).
        assert (defined o) as Ho by (unfold defined; destruct Hs1; eauto).
        assert (Hab : settle drop_panics o d1 = Abort \/ settle drop_panics o d1 <> Abort)
          by (destruct (settle drop_panics o d1); (by right) || (by left)).
        destruct Hab as [Hab|Hab].
        + exists [Abort], v1, w1. split; [simpl; by rewrite He, Hab|]. right.
          exists [], op, ops, [], [], xs, [], Abort. split_and!; try done; [constructor|].
          right. split; [done|]. rewrite Hab in Hd. eauto.
        + destruct (Hrest Hab) as (?&?&?&?). eapply Hgo; try done. by apply settle_defined.
      - eapply (Hgo (Panic PDrop) [] v w1 xs); try done; [by right; eauto|by constructor|simpl; lia|simpl; lia]. }
    assert (Hshrink : forall m, vexec op (v, w) = (vec_shrink_to m ;; ret RUnit) (v, w) -> llen xs = 0 -> m = 0 ->
      (op = OShrinkToFit \/ op = OShrinkTo 0) -> ran (op :: ops) w v xs).
    { intros m He Hx -> Hop. destruct xs as [|x xs]; [|done].
      destruct (N.eq_dec (vcap v) 0) as [Hc|Hc].
      - apply (Hgo (Ret RUnit) [] v w [] []).
        + rewrite He. unfold vec_shrink_to. rewrite bind_assoc, bind_get_fst, Hc.
          by destruct (N.max (v_len v) 0).
        + left. eauto.
        + rewrite <-(settle_nil (Ret RUnit)). constructor; [|by destruct Hop as [->| ->]].
          destruct Hop as [->| ->]; constructor.
        + done.
        + split; [done|by rewrite app_nil_r].
        + lia.
        + simpl. lia.
      - pose proof (shrink_to_zero Hz w v Hr) as Hu. destruct (vec_shrink_to 0 (v, w)) as [r st] eqn:E.
        simpl in Hu. rewrite Hu in E by lia. apply (Hstop ZeroSizeAlloc st).
        + rewrite He. by erewrite bind_UB by exact E.
        + right. done. }
    destruct op as [x| |i x|i|i|n| |l|l|it h|n x|n g|n|n|n|n|m| |i|i x|i| | |sc];
      try (apply Hsound; exact I).
    - destruct (decide (e_strict = true)) as [Hs|Hs].
      2: { apply Hsound. left. by destruct (@e_strict e_profile). }
      destruct (N.eq_dec (i + 1) (llen xs)) as [Hi|Hi]; [|apply Hsound; by right; left].
      destruct (N.eq_dec (llen xs) 1) as [Hl|Hl]; [apply Hsound; by right; right|].
      assert (i = llen xs - 1) as -> by lia.
      pose proof (swap_remove_last_strict w v xs Hr ltac:(lia) Hs) as Hu.
      destruct (vec_swap_remove (llen xs - 1) (v, w)) as [r st] eqn:E. simpl in Hu. subst r.
      apply (Hstop Overlap st); [simpl; by erewrite bind_UB by exact E|].
      left. split_and!; try done. lia.
    - destruct (N.ltb_spec 0 (N.max (llen xs) m)) as [|Hm].
      + apply Hsound. simpl. lia.
      + apply (Hshrink m); [done|lia|lia|]. right. f_equal. lia.
    - destruct (N.ltb_spec 0 (llen xs)) as [|Hm].
      + by apply Hsound.
      + apply (Hshrink 0); [|lia|done|by left]. simpl. unfold bind. by rewrite (shrink_to_fit_eq w v xs Hr).
  Qed.

  Lemma dtrace_quiet xs ops ins outs xs' ds :
    no_drop_panic -> dtrace drop_panics refuses t_clone xs ops ins outs xs' ds ->
    vtrace refuses t_clone xs ops ins outs xs' ds.
  Proof.
    intros Hnd. induction 1 as [|xs op ops i1 i2 o outs xs1 xs2 d1 d2 Hna Hs Ht IH]; [constructor|].
    econstructor; [|exact IH]. destruct Hs as [????? ds Hs _|xs Hc].
    - by rewrite settle_quiet by (by apply culprits_quiet).
    - by rewrite culprits_quiet in Hc.
  Qed.

  Lemma run_any ops : forall D w v xs,
    rep w v xs -> vcap v <= bound D -> llen xs <= D ->
    fits (bound (D + total_demand ops)) -> no_drop_panic ->
    exists outs v' w', vrun ops (v, w) = (outs, (v', w')) /\
      ((exists ins xs' ds, vtrace refuses t_clone xs ops ins outs xs' ds /\ rep w' v' xs' /\
          after w v w' v' ds /\ Forall defined outs) \/
       (exists pre op post ins outs' xs' ds u, ops = pre ++ op :: post /\ outs = outs' ++ [UB u] /\
          vtrace refuses t_clone xs pre ins outs' xs' ds /\ unsound xs' op u)).
  Proof.
    intros D w v xs Hr Hcap Hlen Hfit Hnd.
    destruct (run_gen ops D w v xs Hr Hcap Hlen Hfit) as (outs&v'&w'&He&Hcase).
    exists outs, v', w'. split; [done|].
    destruct Hcase as [(ins&xs'&ds&Ht&Hrest)|(pre&op&post&ins&outs'&xs'&ds&o&->&->&Ht&Hu)].
    - left. exists ins, xs', ds. split; [by apply dtrace_quiet|done].
    - apply dtrace_quiet in Ht; [|done]. right.
      destruct Hu as [(u&->&Hu)|(->&i&xs2&d2&Hs)]; [by eauto 15|]. exfalso.
      inversion Hs as [????? d Hv _ E|]; subst. rewrite settle_quiet in * by (by apply culprits_quiet).
      subst. inversion Hv.
  Qed.

  Lemma reached_from_rep w0 v w xs :
    reached_from w0 v w xs ->
    rep w v xs /\ delete_ptr (vdata v) (heap w) = heap w0.
  Proof.
    intros (v0&w1&ops&outs&Hw&Hf&Hn&Hr&Hd&Ha).
    destruct (new_born Hz w0 Hw) as (v1&w2&He&Hrep&Hb&_&Hc). rewrite Hn in He. injection He as <- <-.
    destruct (run_gen ops 0 w1 v0 [] Hrep) as (o2&v3&w3&He&Hcase);
      [lia|simpl; lia|by rewrite N.add_0_l|].
    rewrite Hr in He. injection He as <- <- <-.
    destruct Hcase as [(ins&ys&ds&_&Hr3&[Ha3 _]&_)|(pre&op&post&ins&outs'&ys&ds&o&_&->&_&Ho)].
    2: { apply Forall_app in Hd as [_ Hd]. inversion Hd as [|?? [[? ?]|[? ?]] _]; destruct Ho as [(?&?&_)|[? _]]; congruence. }
    rewrite (as_slice_ok Hz _ _ _ Hr3) in Ha.
    injection Ha as ->. split; [done|]. destruct Hb as [Hb _]. unfold vrest in *. congruence.
  Qed.
  Lemma reached_rep v w xs : reached v w xs -> rep w v xs.
  Proof. intros [w0 H]. by eapply reached_from_rep. Qed.

  Lemma vspec_len R cl (xs : list T) op ins o xs' ds :
    vspec R cl xs op ins o xs' ds -> llen xs' <= llen xs + demand op.
  Proof.
    destruct 1; simpl; rewrite ?app_length, ?fmap_length; simpl; rewrite ?app_length, ?fmap_length; simpl;
      try (match goal with H : Forall2 _ _ _ |- _ => apply Forall2_length in H end); lia.
  Qed.
  Lemma dtrace_len R cl (xs : list T) ops ins outs xs' ds :
    dtrace drop_panics R cl xs ops ins outs xs' ds -> llen xs' <= llen xs + total_demand ops.
  Proof.
    induction 1 as [|xs op ops i1 i2 o outs xs1 xs2 d1 d2 Hna Hs Ht IH]; [lia|].
    assert (llen xs1 <= llen xs + demand op).
    { destruct Hs as [?????? Hs _|]; [by eapply vspec_len|lia]. }
    simpl. lia.
  Qed.
  (** A reached vector has room for one more element within the size limit. *)
  Lemma reached_room v w xs : reached v w xs -> fits (llen xs + 1).
  Proof.
    intros (w0&v0&w1&ops&outs&Hw&Hf&Hn&Hr&Hd&Ha).
    destruct (new_born Hz w0 Hw) as (v1&w2&He&Hrep&Hb&_&Hc). rewrite Hn in He. injection He as <- <-.
    destruct (run_gen ops 0 w1 v0 [] Hrep) as (o2&v3&w3&He&Hcase);
      [lia|simpl; lia|by rewrite N.add_0_l|].
    rewrite Hr in He. injection He as <- <- <-.
    destruct Hcase as [(ins&ys&ds&Ht&Hr3&_)|(pre&op&post&ins&outs'&ys&ds&o&_&->&_&Ho)].
    2: { apply Forall_app in Hd as [_ Hd]. inversion Hd as [|?? [[? ?]|[? ?]] _]; destruct Ho as [(?&?&_)|[? _]]; congruence. }
    rewrite (as_slice_ok Hz _ _ _ Hr3) in Ha. injection Ha as ->.
    apply dtrace_len in Ht. simpl in Ht. eapply (fits_le Hz); [|exact Hf].
    destruct (N.eq_dec (total_demand ops) 0); lia.
  Qed.

  Lemma pushes_rep ys : forall w v xs v' w',
    rep w v xs -> fits (llen xs + llen ys) ->
    vrun (OPush <$> ys) (v, w) = (replicate (length ys) (Ret RUnit), (v', w')) ->
    rep w' v' (xs ++ ys).
  Proof.
    induction ys as [|y ys IH]; intros w v xs v' w' Hr Hf He; simpl in Hf, He.
    { injection He as <- <-. by rewrite app_nil_r. }
    destruct (push_ok Hz w v xs y Hr) as (r&v1&w1&Hp&Hcase).
    { eapply (fits_le Hz); [|exact Hf]. lia. }
    unfold bind at 1 in He. rewrite Hp in He. destruct Hcase as [(->&Hr1&_)|(->&_)].
    - cbn iota in He. unfold ret in He. destruct (vrun _ (v1, w1)) as [os st] eqn:E.
      injection He as -> ->. replace (xs ++ y :: ys) with ((xs ++ [y]) ++ ys) by (by rewrite <-app_assoc).
      eapply IH; [exact Hr1| |exact E]. eapply (fits_le Hz); [|exact Hf]. rewrite app_length. simpl. lia.
    - unfold unwound in He. destruct (t_needs_drop && t_drop_panics y); simpl in He; [done|].
      by destruct (vrun _ (v1, w1)) as [os st].
  Qed.
  Lemma pushed_rep l v w : pushed l v w -> rep w v l.
  Proof.
    intros (w0&v0&w1&Hw&Hf&Hn&Hr).
    destruct (new_born Hz w0 Hw) as (v1&w2&He&Hrep&Hb&_&Hc). rewrite Hn in He. injection He as <- <-.
    by apply (pushes_rep l w1 v0 [] v w).
  Qed.

  Lemma rep_backed w v xs : rep w v xs -> backed w v.
  Proof.
    intros [Hl [rest Ho]]. pose proof (owns_cap Hz _ _ _ Ho) as Hc.
    destruct Ho as (Hw&Hs&Hb&Hm). unfold backed. destruct (vdata v) as [|b] eqn:E.
    - left. by rewrite Hc, Hm.
    - right. destruct Hm as (?&?&Hlk). exists b. eexists. split_and!; [done|exact Hlk|done| |done].
      simpl. unfold layout_of. by rewrite Hc, Hs.
  Qed.

  (** An older vector survives what happens to a newer one. *)
  Lemma reached_frame w0 v1 w1 xs v2 w2 ys :
    reached_from w0 v1 w1 xs -> reached_from w1 v2 w2 ys ->
    rep w2 v1 xs /\ rep w2 v2 ys.
  Proof.
    intros H1 H2. destruct (reached_from_rep _ _ _ _ H1) as [Hr1 _].
    destruct (reached_from_rep _ _ _ _ H2) as [Hr2 Hh]. split; [|done].
    destruct Hr1 as [Hl [rest (Hw&Hs&Hb&Hm)]]. split; [done|]. exists rest.
    pose proof (rep_wok _ _ _ Hr2) as [Hc Hf]. split_and!; try done.
    destruct (vdata v1) as [|b]; [done|]. destruct Hm as (?&?&Hlk).
    assert (heap w2 !! b = heap w1 !! b) as Hb2.
    { rewrite <-Hh in Hlk |- *. destruct (vdata v2) as [|b2]; [done|]. simpl in *.
      apply lookup_delete_Some in Hlk as [? Hlk]. by rewrite lookup_delete_ne. }
    rewrite Hb2. split_and!; [done| |done].
    destruct (N.ltb_spec b (next_id w2)) as [|Hge]; [done|]. specialize (Hf b Hge). congruence.
  Qed.
End reach.
