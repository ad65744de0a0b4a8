(** C65 without a bound on the length of a run: the counters of a fence at their greatest value. *)
From Verif Require Import UrcFacts3.

Section wrap.
  Context {PR : Profile}.

  (** Two [Urc]s of one fence in use, [n] forgotten, the counter at [k]. *)
  Definition many (k : N) (n : nat) : uconf N :=
    UConf 1 0 5 UAlive false [Fence k 0 false] (UH 0 UHeld :: UH 0 UHeld :: replicate n (UH 0 UForgot)) [].

  Definition one_more (n : nat) : list (ulabel N) := [LCall 0 CClone; LCall (S (S n)) CForget].
  Fixpoint many_more (from n : nat) : list (ulabel N) :=
    match n with O => [] | S n => one_more from ++ many_more (S from) n end.

  Lemma quiet_forgotten n l f :
    existsb (fun h => (u_fence h =? f)%nat && busy (u_pc h)) (replicate n (UH 0 UForgot) ++ l) =
    existsb (fun h => (u_fence h =? f)%nat && busy (u_pc h)) l.
  Proof. induction n as [|n IH]; [done|]. cbn [replicate app existsb]. rewrite IH. cbn. by rewrite andb_false_r. Qed.

  Lemma snoc_forgotten n : replicate n (UH 0 UForgot) ++ [UH 0 UForgot] = replicate (S n) (UH 0 UForgot).
  Proof. symmetry. apply replicate_S_end. Qed.

  Lemma many_idle k n : idle 0 (many k n) = true.
  Proof.
    unfold idle, many. cbn. rewrite <- (app_nil_r (replicate _ _)), quiet_forgotten. done.
  Qed.

  Lemma step_many k n :
    (k < usize_max \/ k = usize_max /\ e_checks = false) ->
    urun (one_more n) (many k n) = Some (many (if k <? usize_max then k + 1 else 0) (S n)).
  Proof.
    intros Hk. unfold one_more, urun.
    assert (E : ustep (LCall 0 CClone) (many k n) = Some (UConf 1 0 5 UAlive false
      [Fence (if k <? usize_max then k + 1 else 0) 0 false]
      (UH 0 UHeld :: UH 0 UHeld :: replicate n (UH 0 UForgot) ++ [UH 0 UHeld]) [])).
    { unfold ustep. cbn [u_hs many lookup list_lookup]. fold (many k n). rewrite many_idle.
      unfold call1, with_fence, inc_strong, many. cbn [u_fence u_fences lookup list_lookup f_freed f_strong f_weak].
      destruct Hk as [Hk|[-> Hc]].
      - rewrite (proj2 (N.leb_le _ _)) by lia. rewrite (proj2 (N.ltb_lt _ _)) by lia. done.
      - rewrite (proj2 (N.leb_gt _ _)) by lia. rewrite (proj2 (N.ltb_ge _ _)) by lia. rewrite Hc. done. }
    rewrite E. clear E. unfold ustep. cbn [u_hs].
    assert (El : (UH 0 UHeld :: UH 0 UHeld :: replicate n (UH 0 UForgot) ++ [UH 0 UHeld]) !! S (S n) = Some (UH 0 UHeld)).
    { change ((replicate n (UH 0 UForgot) ++ [UH 0 UHeld]) !! n = Some (UH 0 UHeld)).
      rewrite lookup_app_r; rewrite replicate_length; [|done]. by rewrite Nat.sub_diag. }
    rewrite El. unfold idle. cbn [u_hs existsb u_fence u_pc]. cbn [busy Nat.eqb andb orb].
    rewrite quiet_forgotten. cbn [existsb busy u_pc u_fence Nat.eqb andb orb negb].
    unfold call1, goto, set_hs. cbn [u_sf u_wf u_val u_data u_mfreed u_fences u_hs u_log u_fence].
    unfold many. do 2 f_equal.
    change (UH 0 UHeld :: UH 0 UHeld :: <[n := UH 0 UForgot]> (replicate n (UH 0 UForgot) ++ [UH 0 UHeld]) =
            UH 0 UHeld :: UH 0 UHeld :: replicate (S n) (UH 0 UForgot)).
    do 2 f_equal. rewrite insert_app_r_alt; rewrite replicate_length; [|done]. rewrite Nat.sub_diag. cbn.
    apply snoc_forgotten.
  Qed.

  Lemma run_many n : forall from k, k + N.of_nat n <= usize_max ->
    urun (many_more from n) (many k from) = Some (many (k + N.of_nat n) (from + n)%nat).
  Proof.
    induction n as [|n IH]; intros from k Hk.
    - cbn [many_more urun]. rewrite N.add_0_r, Nat.add_0_r. done.
    - cbn [many_more]. rewrite urun_app, step_many by (left; lia).
      rewrite (proj2 (N.ltb_lt _ _)) by lia. rewrite IH by lia. do 2 f_equal; lia.
  Qed.

  Lemma more_sharing n : forall from, forallb sharing (many_more from n) = true.
  Proof. induction n as [|n IH]; intros from; [done|]. cbn. apply IH. Qed.

  Lemma run_broken n : exists c', urun (s_drop 0 3 ++ [LCall 1 CClone]) (many 1 n) = Some c' /\
    u_log c' = [UFreeFence 0; UBad].
  Proof.
    assert (Hq : forall q, busy q = false ->
      negb (existsb (fun h => (u_fence h =? 0)%nat && busy (u_pc h)) (UH 0 q :: UH 0 UHeld :: replicate n (UH 0 UForgot))) = true).
    { intros q Hb. rewrite <- (app_nil_r (replicate _ _)). cbn. rewrite Hb, quiet_forgotten. done. }
    set (rest := replicate n (UH 0 UForgot)) in *.
    assert (E1 : urun [LBegin 0 CDrop] (many 1 n) =
      Some (UConf 1 0 5 UAlive false [Fence 1 0 false] (UH 0 UDrop :: UH 0 UHeld :: rest) [])).
    { unfold urun, ustep. cbn [u_hs many lookup list_lookup]. fold (many 1 n). rewrite many_idle. done. }
    assert (E2 : urun (s_steps 0 3) (UConf 1 0 5 UAlive false [Fence 1 0 false] (UH 0 UDrop :: UH 0 UHeld :: rest) []) =
      Some (UConf 0 0 5 UAlive false [Fence 1 0 true] (UH 0 UGone :: UH 0 UHeld :: rest) [UFreeFence 0])) by reflexivity.
    eexists. split.
    - change (s_drop 0 3 ++ [LCall 1 CClone]) with (@app (ulabel N) [LBegin 0 CDrop] (s_steps 0 3 ++ [LCall 1 CClone])).
      rewrite urun_app, E1, urun_app, E2. unfold urun, ustep. cbn [u_hs lookup list_lookup].
      unfold idle. cbn [u_hs]. rewrite Hq by done. reflexivity.
    - reflexivity.
  Qed.
End wrap.

(** In builds without overflow checks clones that are forgotten bring the count of a fence round to one while
    two [Urc]s are in use: dropping one releases the fence under the other. *)
Lemma p_C65_wrap_refuted : forall (PR : Profile), e_checks = false -> exists ls (c : uconf N),
  urun ls (urc_init 5) = Some c /\ forallb sharing ls = true /\
  u_fences c = [Fence 1 0 false] /\ u_hs c !! 0%nat = Some (UH 0 UHeld) /\ u_hs c !! 1%nat = Some (UH 0 UHeld) /\
  count 0 is_urc c = 2 /\ u_log c = [] /\
  exists c', urun (s_drop 0 3 ++ [LCall 1 CClone]) c = Some c' /\ u_log c' = [UFreeFence 0; UBad].
Proof.
  intros PR Hc. set (n := N.to_nat (usize_max - 2)).
  assert (Hn : 2 + N.of_nat n = usize_max) by (subst n; rewrite N2Nat.id; unfold usize_max; lia).
  clearbody n.
  exists ([LCall 0 CClone] ++ many_more 0 n ++ one_more n ++ one_more (S n)), (many 1 (S (S n))).
  split.
  { rewrite urun_app. assert (E0 : urun [LCall 0 CClone] (urc_init 5) = Some (many 2 0)) by reflexivity.
    rewrite E0, urun_app, run_many by lia. rewrite Hn. cbn [Nat.add]. rewrite urun_app, step_many by (right; done).
    rewrite (proj2 (N.ltb_ge _ _)) by lia. rewrite step_many by (left; unfold usize_max; lia). reflexivity. }
  split; [rewrite !forallb_app, more_sharing; done|]. split; [done|]. split; [done|]. split; [done|].
  split; [|split; [done|apply run_broken]].
  unfold count, many. cbn [u_hs].
  assert (E : cnt (onf 0 is_urc) (replicate (S (S n)) (UH 0 UForgot)) = 0).
  { generalize (S (S n)). intros m. induction m as [|m IH]; [done|]. cbn [replicate]. cbn. exact IH. }
  change (UH 0 UHeld :: UH 0 UHeld :: replicate (S (S n)) (UH 0 UForgot))
    with ([UH 0 UHeld; UH 0 UHeld] ++ replicate (S (S n)) (UH 0 UForgot)).
  rewrite cnt_app, E. done.
Qed.

Lemma x_C65_wrap_ex : exists PR : Profile, @e_checks PR = false.
Proof. exists {| e_checks := false; e_strict := true |}. reflexivity. Qed.

(** In builds with overflow checks the call panics instead and nothing has changed, in every state. *)
Lemma p_C65_overflow_partial : forall (PR : Profile) (T : Type) (c : uconf T) i f x,
  e_checks = true -> u_hs c !! i = Some (UH f UHeld) -> idle f c = true ->
  u_fences c !! f = Some x -> f_freed x = false ->
  let panicked := Some (UConf (u_sf c) (u_wf c) (u_val c) (u_data c) (u_mfreed c) (u_fences c) (u_hs c)
                              (u_log c ++ [UPanic])) in
  (f_strong x = usize_max -> ustep (LCall i CClone) c = panicked) /\
  (f_weak x = usize_max -> ustep (LCall i CDowngrade) c = panicked).
Proof.
  intros PR T c i f x Hc Hi Hid Hf Hfr panicked.
  split; intros E; unfold ustep; rewrite Hi, Hid; unfold call1, with_fence; cbn [u_fence]; rewrite Hf, Hfr;
    unfold inc_strong, inc_weak; rewrite E, (proj2 (N.leb_gt _ _)), Hc by lia; done.
Qed.

Lemma x_C65_overflow_ex :
  let c := UConf 1 0 5 UAlive false [Fence usize_max usize_max false] [UH 0 UHeld] [] in
  idle 0 c = true /\ @ustep {| e_checks := true; e_strict := true |} N (LCall 0 CClone) c =
    Some (UConf 1 0 5 UAlive false [Fence usize_max usize_max false] [UH 0 UHeld] [UPanic]).
Proof. split; vm_compute; reflexivity. Qed.

(** In the other builds the call returns a handle and the count is zero, in every state. *)
Lemma p_C65_zero_refuted : forall (PR : Profile) (T : Type) (c : uconf T) i f x,
  e_checks = false -> u_hs c !! i = Some (UH f UHeld) -> idle f c = true ->
  u_fences c !! f = Some x -> f_freed x = false ->
  let counted y p := Some (UConf (u_sf c) (u_wf c) (u_val c) (u_data c) (u_mfreed c) (<[f := y]> (u_fences c))
                                 (u_hs c ++ [UH f p]) (u_log c)) in
  (f_strong x = usize_max -> ustep (LCall i CClone) c = counted (Fence 0 (f_weak x) false) UHeld) /\
  (f_weak x = usize_max -> ustep (LCall i CDowngrade) c = counted (Fence (f_strong x) 0 false) WHeld).
Proof.
  intros PR T c i f x Hc Hi Hid Hf Hfr counted.
  split; intros E; unfold ustep; rewrite Hi, Hid; unfold call1, with_fence; cbn [u_fence]; rewrite Hf, Hfr;
    unfold inc_strong, inc_weak; rewrite E, (proj2 (N.leb_gt _ _)), Hc, Hfr by lia; done.
Qed.

Lemma x_C65_zero_ex :
  let c := UConf 1 0 5 UAlive false [Fence usize_max usize_max false] [UH 0 UHeld] [] in
  idle 0 c = true /\ @ustep {| e_checks := false; e_strict := true |} N (LCall 0 CDowngrade) c =
    Some (UConf 1 0 5 UAlive false [Fence usize_max 0 false] [UH 0 UHeld; UH 0 WHeld] []).
Proof. split; vm_compute; reflexivity. Qed.
