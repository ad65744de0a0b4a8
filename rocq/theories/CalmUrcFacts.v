(** Proofs of the statements collected in PropertiesCalmUrc.v: sharing values between threads with [Urc]. *)
From Verif Require Export SpecCalmUrc UrcFacts3.
From Coq Require Import ZifyBool ZifyNat ZifyN.
Ltac Zify.zify_post_hook ::= idtac.

Section calm_urc.
  Context {PR : Profile} {T : Type}.
  Implicit Types (c : uconf T) (ls : list (ulabel T)).

  (** States that steps with labels accepted by [good] never reach. *)
  Definition kept_pc (p : upc) : bool := match p with UForgot | UFence | WForgot => false | _ => true end.
  Definition urc_pc (p : upc) : bool :=
    match p with WHeld | WDrop | WSub | WLoadS | WLeaked | WForgot => false | _ => true end.

  Lemma hs_goto (Q : uhandle -> Prop) i f p c :
    Forall Q (u_hs c) -> Q (UH f p) -> Forall Q (<[i := UH f p]> (u_hs c)).
  Proof. intros. by apply Forall_insert. Qed.

  Lemma kept_step l c c' : ustep l c = Some c' -> keeping l = true ->
    Forall (fun h => kept_pc (u_pc h) = true) (u_hs c) -> Forall (fun h => kept_pc (u_pc h) = true) (u_hs c').
  Proof.
    intros Hst Hk Hall. destruct l as [i k|i k|i flag|i y|i|i|i]; simpl in Hst, Hk; try done;
      destruct (u_hs c !! i) as [[f p]|] eqn:Hi; try done.
    2: destruct p; try done; destruct (idle f c); [|done]; injection Hst as <-; apply hs_goto; [done|by destruct k].
    2: unfold step in Hst; simpl in Hst.
    all: destruct p; try done.
    all: repeat (case_match; try done); simplify_eq.
    all: unfold call1, with_fence, checked, inc_strong, inc_weak, dec_strong, dec_weak, free_fence, drop_in_place, add_h, set_f, goto; simpl;
      repeat (case_match; simpl); try done; try (by apply hs_goto); try (apply Forall_app; split; [done || by apply hs_goto|by repeat constructor]).
  Qed.
  Lemma kept_run ls : forall c c', urun ls c = Some c' -> forallb keeping ls = true ->
    Forall (fun h => kept_pc (u_pc h) = true) (u_hs c) -> Forall (fun h => kept_pc (u_pc h) = true) (u_hs c').
  Proof.
    induction ls as [|l ls IH]; simpl; intros c c' Hr Hk Hall; [by injection Hr as <-|].
    apply andb_true_iff in Hk as [Hl Hk]. destruct (ustep l c) as [c1|] eqn:E; [|done].
    eapply IH; [done|done|]. by eapply kept_step.
  Qed.
  Lemma urcs_step l c c' : ustep l c = Some c' -> urcs_only l = true ->
    Forall (fun h => urc_pc (u_pc h) = true) (u_hs c) ->
    Forall (fun h => urc_pc (u_pc h) = true) (u_hs c') /\ happened is_env_fail c' = happened is_env_fail c.
  Proof.
    intros Hst Hk Hall. destruct l as [i k|i k|i flag|i y|i|i|i]; simpl in Hst, Hk; try done;
      destruct (u_hs c !! i) as [[f p]|] eqn:Hi; try done;
      pose proof (Forall_lookup_1 _ _ _ _ Hall Hi) as Hp; simpl in Hp.
    2: destruct p; try done; destruct (idle f c); [|done]; injection Hst as <-; (split; [|done]); apply hs_goto; [done|by destruct k].
    2: unfold step in Hst; simpl in Hst; destruct flag; [done|].
    all: destruct p; try done.
    all: repeat (case_match; try done); simplify_eq.
    all: unfold call1, with_fence, checked, inc_strong, inc_weak, dec_strong, dec_weak, free_fence, drop_in_place, add_h, set_f, goto; simpl;
      repeat (case_match; simpl); try (split; [|unfold happened; simpl; rewrite ?cnt_app, ?cnt_snoc; simpl; by rewrite ?N.add_0_r]); simpl;
      try done; try (by apply hs_goto); try (apply Forall_app; split; [done || by apply hs_goto|by repeat constructor]).
  Qed.
  Lemma urcs_run ls : forall c c', urun ls c = Some c' -> forallb urcs_only ls = true ->
    Forall (fun h => urc_pc (u_pc h) = true) (u_hs c) ->
    Forall (fun h => urc_pc (u_pc h) = true) (u_hs c') /\ happened is_env_fail c' = happened is_env_fail c.
  Proof.
    induction ls as [|l ls IH]; simpl; intros c c' Hr Hk Hall; [by injection Hr as <-|].
    apply andb_true_iff in Hk as [Hl Hk]. destruct (ustep l c) as [c1|] eqn:E; [|done].
    destruct (urcs_step _ _ _ E Hl Hall) as [H1 H2]. destruct (IH _ _ Hr Hk H1) as [H3 H4]. split; [done|congruence].
  Qed.
  Lemma dropped_step l c c' : ustep l c = Some c' -> Forall (fun h => kept_pc (u_pc h) = true) (u_hs c) ->
    happened is_fence_dropped c' = happened is_fence_dropped c.
  Proof.
    intros Hst Hall. destruct l as [i k|i k|i flag|i y|i|i|i]; simpl in Hst;
      destruct (u_hs c !! i) as [[f p]|] eqn:Hi; try done;
      pose proof (Forall_lookup_1 _ _ _ _ Hall Hi) as Hp; simpl in Hp.
    3: unfold step in Hst; simpl in Hst.
    all: destruct p; try done.
    all: repeat (case_match; try done); simplify_eq.
    all: unfold call1, with_fence, checked, inc_strong, inc_weak, dec_strong, dec_weak, free_fence, drop_in_place, add_h, set_f, goto; simpl;
      repeat (case_match; simpl); try done; unfold happened; simpl; rewrite ?cnt_snoc; simpl; by rewrite ?N.add_0_r.
  Qed.
  Lemma dropped_run ls : forall c c', urun ls c = Some c' -> forallb keeping ls = true ->
    Forall (fun h => kept_pc (u_pc h) = true) (u_hs c) ->
    happened is_fence_dropped c' = happened is_fence_dropped c.
  Proof.
    induction ls as [|l ls IH]; simpl; intros c c' Hr Hk Hall; [by injection Hr as <-|].
    apply andb_true_iff in Hk as [Hl Hk]. destruct (ustep l c) as [c1|] eqn:E; [|done].
    rewrite (IH _ _ Hr Hk) by (by eapply kept_step). by eapply dropped_step.
  Qed.
  Lemma kept_count f q c : Forall (fun h => kept_pc (u_pc h) = true) (u_hs c) ->
    (forall p, q p = true -> kept_pc p = false) -> count f q c = 0.
  Proof.
    intros Hall Hq. unfold count. destruct (N.eq_0_gt_0_cases (cnt (onf f q) (u_hs c))) as [?|(i&h&Hi&Hh)%cnt_pos]; [done|].
    unfold onf in Hh. apply andb_true_iff in Hh as [_ Hh]. apply Hq in Hh.
    by rewrite (Forall_lookup_1 _ _ _ _ Hall Hi) in Hh.
  Qed.
End calm_urc.

(** * C84 *)

(** Threads share a value through [clone], [envelop], [downgrade], reads, drops and [get_mut], and drop all
    their handles: the counts of a fence are exactly its [Urc]s and [Weak]s ... *)
Lemma p_C84_counts : forall (PR : Profile) (T : Type) (x : T) ls c,
  urc_reached x ls c -> forallb sharing ls = true -> forallb keeping ls = true ->
  forall i f, u_hs c !! i = Some (UH f UHeld) -> idle f c = true ->
  exists c' b, ustep (LCall i CCounts) c = Some c' /\
    u_log c' = u_log c ++ [UCounts (count f is_urc c) (count f is_weak c) b].
Proof.
  intros PR T x ls c Hr Hs Hk i f Hi Hid. pose proof (sharing_zero _ _ _ Hr Hs) as Hz.
  destruct (p_C65_fence_counts_partial PR T x ls c Hr Hz i f Hi Hid) as (c'&E1&E2).
  exists c', (u_sf c =? 1). split; [done|]. rewrite E2. destruct Hr as [_ Hr].
  pose proof (kept_run _ _ _ Hr Hk ltac:(by repeat constructor)) as Hall.
  rewrite (kept_count f is_urc_lost c Hall), (kept_count f is_weak_lost c Hall), !N.add_0_r; [done|by intros []..].
Qed.

Lemma x_C84_counts_ex : forall (PR : Profile), exists c,
  urc_reached 7 [LCall 0 CClone; LCall 0 CDowngrade; LBegin 0 CEnvelop; LStep 0 false; LStep 0 false] c /\
  u_hs c = [UH 0 UHeld; UH 0 UHeld; UH 0 WHeld; UH 1 UHeld] /\ idle 0 c = true /\
  count 0 is_urc c = 2 /\ count 0 is_weak c = 1 /\
  forallb sharing [LCall 0 CClone; LCall 0 CDowngrade; LBegin 0 CEnvelop; LStep (T:=N) 0 false; LStep 0 false] = true /\
  forallb keeping [LCall 0 CClone; LCall 0 CDowngrade; LBegin 0 CEnvelop; LStep (T:=N) 0 false; LStep 0 false] = true.
Proof. intros PR. eexists. split; [split; [done|vm_compute; reflexivity]|]. done. Qed.

(** ... a mutable reference given out by [get_mut] is the only way to the value ... *)
Lemma p_C84_exclusive : forall (PR : Profile) (T : Type) (x : T) ls c,
  urc_reached x ls c -> forallb sharing ls = true ->
  forall i f, u_hs c !! i = Some (UH f UMut) -> only_handle i c.
Proof.
  intros PR T x ls c Hr Hs i f Hi. eapply p_C68_exclusive_partial; [done| |done]. by eapply sharing_zero.
Qed.

(** ... while only [Urc]s are made and memory suffices, the shared counter is the number of fences in use
    whenever no call is in progress, and once every handle is dropped it is zero and the memory of every
    fence was released exactly once. *)
Lemma p_C84_fences : forall (PR : Profile) (T : Type) (x : T) ls c,
  urc_reached x ls c -> forallb sharing ls = true -> forallb keeping ls = true -> forallb urcs_only ls = true ->
  quiet c -> u_sf c = fences_that (fence_live c) c.
Proof.
  intros PR T x ls c Hr Hs Hk Hu Hq. pose proof Hr as [_ Hrun]. 
  destruct (urcs_run _ _ _ Hrun Hu ltac:(by repeat constructor)) as [H1 H2].
  pose proof (kept_run _ _ _ Hrun Hk ltac:(by repeat constructor)) as H3.
  pose proof (dropped_run _ _ _ Hrun Hk ltac:(by repeat constructor)) as H4.
  eapply p_C65_urcs_partial; [done|by eapply sharing_zero|by rewrite H2|by rewrite H4|].
  apply Forall_lookup. intros i h Hi.
  pose proof (Forall_lookup_1 _ _ _ _ H1 Hi) as E1. pose proof (Forall_lookup_1 _ _ _ _ H3 Hi) as E3.
  pose proof (Forall_lookup_1 _ _ _ _ Hq Hi) as E. destruct E as [E En]; destruct h as [f []]; simpl in *; try done; auto.
Qed.
Lemma p_C84_released : forall (PR : Profile) (T : Type) (x : T) ls c,
  urc_reached x ls c -> forallb sharing ls = true -> forallb keeping ls = true -> forallb urcs_only ls = true ->
  Forall (fun h => u_pc h = UGone) (u_hs c) ->
  u_sf c = 0 /\ forall f, (f < length (u_fences c))%nat -> happened (is_ff f) c = 1.
Proof.
  intros PR T x ls c Hr Hs Hk Hu Hg. split.
  - rewrite (p_C84_fences PR T x ls c Hr Hs Hk Hu).
    + destruct (N.eq_0_gt_0_cases (fences_that (fence_live c) c)) as [?|(k&f&Hf&Hl)%cnt_pos]; [done|].
      exfalso. unfold fence_live in Hl. destruct (u_fences c !! f); [|done].
      apply andb_true_iff in Hl as [_ Hl]. unfold has_urc in Hl. apply N.ltb_lt, cnt_pos in Hl as (i&h&Hi&Hh).
      unfold onf in Hh. apply andb_true_iff in Hh as [_ Hh].
      by rewrite (Forall_lookup_1 _ _ _ _ Hg Hi) in Hh.
    + eapply Forall_impl; [exact Hg|]. by intros h ->.
  - intros f Hf. eapply p_C64_fences_partial; [done|by eapply sharing_zero|done|].
    intros i h Hi _. by apply (Forall_lookup_1 _ _ _ _ Hg Hi).
Qed.
Lemma x_C84_released_ex : forall (PR : Profile), exists ls c, urc_reached 7 ls c /\
  forallb sharing ls = true /\ forallb keeping ls = true /\ forallb urcs_only ls = true /\
  u_hs c = [UH 0 UGone; UH 1 UGone; UH 1 UGone] /\ length (u_fences c) = 2%nat /\ u_val c = 9 /\
  In (LEndMut 2 9) ls.
Proof.
  intros PR. exists [LBegin 0 CEnvelop; LStep 0 false; LStep 0 false; LCall 1 CClone; LBegin 0 CDrop; LStep 0 false;
    LBegin 1 CDrop; LStep 1 false; LStep 0 false; LBegin 2 CGetMut; LStep 2 false; LStep 2 false; LStep 2 false;
    LEndMut 2 9; LBegin 2 CDrop; LStep 2 false; LStep 2 false; LStep 2 false]. eexists.
  split; [split; [done|vm_compute; reflexivity]|]. repeat (split; [done|]). simpl. tauto.
Qed.
Lemma x_C84_fences_ex : forall (PR : Profile), exists ls c, urc_reached 7 ls c /\
  forallb sharing ls = true /\ forallb keeping ls = true /\ forallb urcs_only ls = true /\ quiet c /\
  u_hs c = [UH 0 UHeld; UH 1 UHeld; UH 1 UHeld; UH 2 UGone] /\ u_sf c = 2.
Proof.
  intros PR. exists [LBegin 0 CEnvelop; LStep 0 false; LStep 0 false; LCall 1 CClone; LBegin 1 CEnvelop; LStep 1 false; LStep 1 false;
    LBegin 3 CDrop; LStep 3 false; LStep 3 false]. eexists.
  split; [split; [done|vm_compute; reflexivity]|]. repeat (split; [done|]). split; [by repeat constructor|done].
Qed.
Lemma x_C84_exclusive_ex : forall (PR : Profile), exists ls c, urc_reached 7 ls c /\ forallb sharing ls = true /\
  u_hs c = [UH 0 UGone; UH 1 UMut].
Proof.
  intros PR. exists [LBegin 0 CEnvelop; LStep 0 false; LStep 0 false; LBegin 0 CDrop; LStep 0 false; LStep 0 false;
    LBegin 1 CGetMut; LStep 1 false; LStep 1 false; LStep 1 false]. eexists.
  split; [split; [done|vm_compute; reflexivity]|]. done.
Qed.
