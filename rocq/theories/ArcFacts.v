(** Proofs of the statements on [Arc]. *)
From Verif Require Export ArcProofs.
From Coq Require Import ZifyBool ZifyNat ZifyN.

Section aux.
  Context {PR : Profile} {T : Type}.
  Implicit Types (c : aconf T) (h : ahandle).
  Ltac hap := autorewrite with hap; simpl; rewrite ?N.add_0_r; try lia.

  Lemma leaks c : happened is_leak c = happened is_forget c + happened is_clone_panic c.
  Proof. unfold happened. induction (a_log c) as [|e l IH]; [done|]. simpl. rewrite IH. destruct e; simpl; lia. Qed.

  (** After a refusal in [make_mut] no mutable reference is ever given out. *)
  Definition quiet (x : xpc) : bool := match x with XMut | XLoadS | XUnlock _ => false | _ => true end.
  Definition PD c : Prop :=
    1 <= happened is_weak_made c /\ a_weak c = happened is_weak_made c /\
    Forall (fun h => quiet (h_ex h) = true) (a_hs c).

  Lemma PD_upd c c' i h h' :
    PD c -> a_hs c !! i = Some h -> a_hs c' = <[i := h']> (a_hs c) -> quiet (h_ex h') = true ->
    happened is_weak_made c <= happened is_weak_made c' -> a_weak c' = happened is_weak_made c' -> PD c'.
  Proof.
    intros (H1&H2&H3) Hi Hhs Hq Hv Hw. split; [lia|]. split; [done|]. rewrite Hhs. by apply Forall_insert.
  Qed.
  Lemma PD_say c e : PD c -> is_weak_made e = false -> PD (say e c).
  Proof. intros (H1&H2&H3) He. unfold PD. simpl. hap. rewrite He. rewrite N.add_0_r. done. Qed.
  Lemma PD_eq c c' : PD c -> a_hs c' = a_hs c -> a_weak c' = a_weak c -> a_log c' = a_log c -> PD c'.
  Proof. intros HD E1 E2 E3. unfold PD, happened in *. by rewrite E1, E2, E3. Qed.
  Lemma PD_checked b c c' : PD c -> PD c' -> PD (checked b c c').
  Proof. intros. destruct b; [done|]. by apply PD_say. Qed.

  Lemma PD_step l c c' :
    PD c -> astep l c = Some c' -> happened is_weak_made c + 4 <= usize_max ->
    PD c' /\ happened is_weak_made c' <= happened is_weak_made c + 1.
  Proof.
    intros HD Hst Hsz. pose proof HD as (H1&H2&H3).
    assert (HV : happened is_weak_made c' <= happened is_weak_made c + 1).
    { destruct l as [i c0|i c0|i k flag|i flag|i y|i|]; simpl in Hst.
      all: repeat (case_match; try done); simplify_eq; unfold checked; repeat case_match; hap.
      all: unfold step_shared, step_excl, checked in *; repeat (case_match; try done); simplify_eq; hap. }
    split; [|done].
    destruct l as [i c0|i c0|i k flag|i flag|i y|i|]; simpl in Hst.
    7: { destruct (_ <? _); simplify_eq. by apply PD_say. }
    all: destruct (a_hs c !! i) as [h|] eqn:Hi; [|done].
    - destruct h as [x sh]. destruct x; try done. injection Hst as <-. by eapply PD_upd.
    - destruct h as [x sh]. destruct x, sh; try done. injection Hst as <-.
      assert (HD' : PD (goto i (begin_excl c0) c)) by (eapply PD_upd; try done; by destruct c0).
      destruct c0; try done. by apply PD_say.
    - destruct (h_sh h !! k) as [s|] eqn:Hk; [|done]. injection Hst as <-.
      assert (Hq : quiet (h_ex h) = true) by (by eapply (Forall_lookup_1 (fun h => quiet (h_ex h) = true))).
      destruct s; simpl.
      + apply PD_checked; [done|]. by eapply PD_upd.
      + destruct (max_refcount <? old).
        * apply PD_say; [|done]. by eapply PD_upd.
        * apply PD_say; [|done]. assert (HD' : PD (send_ i h k c)) by (by eapply PD_upd).
          destruct HD' as (?&?&?). split; [done|]. split; [done|]. apply Forall_app. split; [done|by repeat constructor].
      + apply PD_checked; [done|]. destruct flag; [|done]. apply PD_say; [|done]. by eapply PD_upd.
      + apply PD_checked; [done|]. by eapply PD_upd.
      + apply PD_checked; [done|]. destruct (v =? usize_max); [by eapply PD_upd|].
        destruct (negb flag && (a_weak c =? v)) eqn:E; [|done].
        eapply PD_upd; try done; simpl; hap.
    - assert (Hq : quiet (h_ex h) = true) by (by eapply (Forall_lookup_1 (fun h => quiet (h_ex h) = true))).
      assert (Hg : forall x, quiet x = true -> PD (goto i x c)) by (intros; by eapply PD_upd).
      assert (Hg' : forall x n, quiet x = true -> PD (goto i x (set_strong n c))) by (intros; by eapply PD_upd).
      assert (Hd' : forall x n, quiet x = true -> PD (goto i x (set_data n c))) by (intros; by eapply PD_upd).
      assert (Hf' : forall x, quiet x = true -> PD (goto i x (set_freed c))) by (intros; by eapply PD_upd).
      assert (E0 : (a_weak c =? 0) = false) by lia.
      destruct (h_ex h); simpl in Hst; simplify_eq; try (apply PD_checked; [done|]); rewrite ?E0.
      + apply Hg'. by case_match.
      + destruct flag; repeat (apply PD_say; [|done]); by apply Hd'.
      + by apply Hg.
      + apply PD_say; [|done]. by apply Hf'.
      + case_match; [by apply Hg'|]. apply PD_say; [by apply Hg|done].
      + apply PD_say; [by apply Hd'|done].
      + by apply Hg.
      + apply PD_say; [by apply Hf'|done].
      + apply PD_say; [by apply Hg|done].
      + by apply Hg.
      + by destruct (strong =? 1); apply Hg.
      + destruct (e_checks && (v =? usize_max)); [apply PD_say; [by apply Hg|done]|].
        destruct (negb flag && (a_weak c =? v)) eqn:E; [|by apply Hg].
        assert (Hadd : wadd v 1 = v + 1).
        { unfold wadd. apply N.mod_small. change (2 ^ 64) with (usize_max + 1). lia. }
        rewrite Hadd. eapply PD_upd; try done; simpl; hap.
      + destruct (negb flag && (a_strong c =? 1)); [by apply Hg'|by apply Hg].
      + apply PD_say; [by apply Hd'|done].
      + destruct flag; [apply PD_say; [by apply Hg|done]|by apply Hg].
      + destruct flag; [apply PD_say; [by apply Hg|done]|by apply Hg].
      + destruct flag; [apply PD_say; [by apply Hg|done]|by apply Hg].
      + apply Hg'. by case_match.
    - destruct h as [x sh]. destruct x, sh; try done. injection Hst as <-.
      apply PD_checked; [done|]. by eapply PD_upd.
    - destruct h as [x sh]. destruct x; try done. injection Hst as <-.
      apply PD_checked; [done|]. by do 2 (apply PD_say; [|done]).
  Qed.

  Lemma lost_step l c c' :
    AInv c -> astep l c = Some c' -> asize c + 4 <= usize_max -> happened is_lost c = 0 ->
    (AInv c' /\ happened is_lost c' = 0 /\ asize c' <= asize c + 1) \/
    (PD c' /\ happened is_weak_made c' <= asize c).
  Proof.
    intros HI Hst Hsz H0. destruct (N.eq_dec (happened is_lost c') 0) as [E|E].
    { left. destruct (AInv_step _ _ _ HI Hst Hsz E). done. }
    right.
    assert (Hx : exists i h, a_hs c !! i = Some h /\ h_ex h = XMNew /\ c' = say ALostValue (goto i XHeld c)).
    { destruct l as [i c0|i c0|i k flag|i flag|i y|i|]; simpl in Hst.
      4: { destruct (a_hs c !! i) as [h|] eqn:Hi; [|done]. exists i, h. split; [done|].
        destruct (h_ex h); simpl in Hst; unfold checked in Hst; repeat (case_match; try done); simplify_eq;
          try done; exfalso; revert E; hap. }
      all: exfalso; repeat (case_match; try done); simplify_eq; revert E; unfold checked; repeat case_match; hap.
      all: unfold step_shared, checked; repeat case_match; hap. }
    destruct Hx as (i&h&Hi&Hx&->). destruct HI as (_&_&HP). destruct HP as [HA|[HB|HC]].
    - destruct HA as (_&_&_&_&Hl&_). pose proof (Forall_lookup_1 _ _ _ _ Hl Hi) as [He _]. by rewrite Hx in He.
    - destruct HB as (j&x&Hj&He&Ha&HL&Hs&Hw&Hf&Hd&HV0&HV1&_).
      destruct (decide (i = j)) as [->|Hne]; [|by rewrite (Ha _ _ Hne Hi) in Hx].
      rewrite Hj in Hi. injection Hi as <-. simpl in Hx. subst x. split.
      + apply PD_say; [|done]. split; [apply HV1; tauto|]. split; [done|]. simpl. apply Forall_insert; [|done].
        apply Forall_lookup. intros k h Hk. destruct (decide (k = j)) as [->|Hne].
        * rewrite Hj in Hk. by injection Hk as <-.
        * by rewrite (Ha _ _ Hne Hk).
      + hap. unfold asize. lia.
    - destruct HC as [Hg _]. pose proof (Forall_lookup_1 _ _ _ _ Hg Hi) as ->. done.
  Qed.

  Lemma PD_run ls c c' :
    PD c -> arun ls c = Some c' -> happened is_weak_made c + llen ls + 4 <= usize_max -> PD c'.
  Proof.
    revert c. induction ls as [|l ls IH]; simpl; intros c HD H Hsz; [by injection H as <-|].
    destruct (astep l c) as [c1|] eqn:E; [|done].
    destruct (PD_step _ _ _ HD E) as [HD1 Hv]; [lia|]. apply (IH c1); [done|done|lia].
  Qed.
  Lemma any_run ls c c' :
    AInv c -> happened is_lost c = 0 -> arun ls c = Some c' -> asize c + llen ls + 4 <= usize_max ->
    (AInv c' /\ happened is_lost c' = 0) \/ PD c'.
  Proof.
    revert c. induction ls as [|l ls IH]; simpl; intros c HI H0 H Hsz; [injection H as <-; by left|].
    destruct (astep l c) as [c1|] eqn:E; [|done].
    destruct (lost_step _ _ _ HI E) as [(HI1&H1&Hs)|[HD Hv]]; [lia|done| |].
    - apply (IH c1); [done|done|done|lia].
    - right. eapply PD_run; [done|done|]. lia.
  Qed.
End aux.

(** *** Schedules used as examples *)
Definition s_clone (i : nat) : list (alabel N) := [LBeginS i CClone; LSh i 0 false; LSh i 0 false].
Definition s_down (i : nat) : list (alabel N) := [LBeginS i CDowngrade; LSh i 0 false; LSh i 0 false].
Definition s_drop_one (i : nat) : list (alabel N) := [LBeginX i CDrop; LEx i false].
(** Two handles, one of them in another thread, used and dropped at the same time. *)
Definition s_two : list (alabel N) :=
  s_clone 0 ++ [LBeginS 0 CRead; LBeginS 1 CRead; LSh 0 0 false; LSh 1 0 true; LBeginX 1 CDrop; LSh 0 0 true;
                LBeginX 0 CDrop; LEx 1 false; LEx 0 false; LEx 0 false; LEx 0 false; LEx 0 false].
(** A [Weak] is made; then [make_mut] moves the value out and the allocator refuses. *)
Definition s_lost : list (alabel N) :=
  s_down 0 ++ [LBeginX 0 CMakeMut; LEx 0 false; LEx 0 false; LEx 0 false; LEx 0 false; LEx 0 false; LEx 0 true].

Lemma p_C55_safe_partial : forall (PR : Profile) (T : Type) (x : T) ls c,
  arc_reached x ls c -> happened is_lost c = 0 ->
  happened is_bad c = 0 /\ happened is_destroy c + happened is_out c <= 1 /\ happened is_free c <= 1.
Proof.
  intros PR T x ls c Hr Hl. destruct (reached_inv x ls c Hr Hl) as [(Hb&_&HP) _]. split; [done|].
  destruct HP as [HA|[HB|HC]].
  - destruct HA as (_&_&_&_&_&_&_&_&_&_&E1&E2&E3&_). lia.
  - destruct HB as (i&y&_&_&_&_&_&_&_&_&_&_&E1&E2&E3&_). rewrite E1, E2, E3. destruct (stage y); lia.
  - destruct HC as (_&_&_&_&E1&E2&_). rewrite E1, E2. destruct (a_freed c); lia.
Qed.

Lemma x_C55_safe_ex : forall (PR : Profile), exists c,
  arc_reached 5 s_two c /\ happened is_lost c = 0 /\
  a_log c = [ACloneOk; ARead 5; ARead 5; ADestroy; AFree] /\ all_gone c.
Proof.
  intros PR. eexists. split; [split; [done|vm_compute; reflexivity]|].
  split; [done|]. split; [done|]. repeat constructor.
Qed.

(** A [Weak] exists and the allocator refuses the new block of [make_mut]: the panic leaves a handle
    whose value was moved out, and reading through it touches it. *)
Lemma p_C55_safe_refuted : forall (PR : Profile), exists c,
  arc_reached 5 (s_lost ++ [LBeginS 0 CRead; LSh 0 0 true]) c /\ happened is_bad c = 1.
Proof. intros [[] st]; eexists; (split; [split; [done|vm_compute; reflexivity]|done]). Qed.

Lemma p_C56_last_handle_partial : forall (PR : Profile) (T : Type) (x : T) ls c,
  arc_reached x ls c -> happened is_lost c = 0 -> all_gone c ->
  happened is_forget c = 0 -> happened is_clone_panic c = 0 ->
  happened is_destroy c + happened is_out c = 1 /\
  (happened is_weak_made c = 0 -> happened is_drop_panic c = 0 -> happened is_free c = 1).
Proof.
  intros PR T x ls c Hr Hl Hg Hf Hp. destruct (reached_inv x ls c Hr Hl) as [(Hb&_&HP) _].
  assert (HL : happened is_leak c = 0).
  { rewrite leaks. lia. }
  assert (HW : owners (a_hs c) = 0).
  { apply sumN_zero. eapply Forall_impl; [exact Hg|]. by intros ? ->. }
  destruct HP as [HA|[HB|HC]].
  - destruct HA as (_&_&Hs&H1&_). lia.
  - destruct HB as (i&y&Hi&He&_). pose proof (Forall_lookup_1 _ _ _ _ Hg Hi) as E. simpl in E.
    injection E as ->. done.
  - destruct HC as (_&_&_&_&E1&E2&_&E3). split; [done|]. intros HV HD. rewrite E2.
    destruct (a_freed c); [done|]. destruct (E3 eq_refl); lia.
Qed.

Lemma x_C56_last_handle_ex : forall (PR : Profile), exists c,
  arc_reached 5 s_two c /\ happened is_lost c = 0 /\ all_gone c /\ happened is_forget c = 0 /\
  happened is_clone_panic c = 0 /\ happened is_weak_made c = 0 /\ happened is_drop_panic c = 0.
Proof.
  intros PR. eexists. split; [split; [done|vm_compute; reflexivity]|]. split; [done|].
  split; [by repeat constructor|]. done.
Qed.

(** If the destructor panics the memory is not freed. *)
Lemma p_C56_last_handle_refuted : forall (PR : Profile), exists c,
  arc_reached 5 [LBeginX 0 CDrop; LEx 0 false; LEx 0 true] c /\ all_gone c /\
  happened is_forget c = 0 /\ happened is_weak_made c = 0 /\ happened is_destroy c = 1 /\ happened is_free c = 0.
Proof.
  intros PR. eexists. split; [split; [done|vm_compute; reflexivity]|]. split; [by repeat constructor|]. done.
Qed.

(** The part that holds: no [Weak] was ever made. *)
Lemma p_C57_freed_partial : forall (PR : Profile) (T : Type) (x : T) ls c,
  arc_reached x ls c -> happened is_lost c = 0 -> all_gone c ->
  happened is_forget c = 0 -> happened is_clone_panic c = 0 -> happened is_drop_panic c = 0 ->
  a_freed c = true <-> happened is_weak_made c = 0.
Proof.
  intros PR T x ls c Hr Hl Hg Hf Hp Hd.
  pose proof (p_C56_last_handle_partial PR T x ls c Hr Hl Hg Hf Hp) as [H1 H2].
  destruct (reached_inv x ls c Hr Hl) as [(Hb&_&HP) _].
  destruct HP as [HA|[HB|HC]].
  - destruct HA as (_&_&_&_&_&_&_&_&_&_&E1&E2&E3&_). lia.
  - destruct HB as (i&y&Hi&He&_). pose proof (Forall_lookup_1 _ _ _ _ Hg Hi) as E. simpl in E.
    injection E as ->. done.
  - destruct HC as (_&_&_&_&E1&E2&E3&E4). destruct (a_freed c); [split; [by apply E3|done]|].
    split; [done|]. intros HV. destruct (E4 eq_refl); lia.
Qed.

Lemma x_C57_freed_ex : forall (PR : Profile), exists c,
  arc_reached 5 s_two c /\ happened is_lost c = 0 /\ all_gone c /\ happened is_forget c = 0 /\
  happened is_clone_panic c = 0 /\ happened is_drop_panic c = 0 /\ a_freed c = true.
Proof.
  intros PR. eexists. split; [split; [done|vm_compute; reflexivity]|]. split; [done|].
  split; [by repeat constructor|]. done.
Qed.

(** Once a [Weak] was made the memory is never freed, whatever happens afterwards... *)
Lemma p_C57_never_freed_refuted : forall (PR : Profile) (T : Type) (x : T) ls c,
  arc_reached x ls c -> happened is_lost c = 0 -> 1 <= happened is_weak_made c ->
  happened is_free c = 0 /\ a_freed c = false.
Proof.
  intros PR T x ls c Hr Hl HV. destruct (reached_inv x ls c Hr Hl) as [(Hb&_&HP) _].
  destruct HP as [HA|[HB|HC]].
  - destruct HA as (_&Hf&_&_&_&_&_&_&_&_&E1&E2&E3&_). done.
  - destruct HB as (i&y&_&_&_&_&_&_&Hf&_&_&_&_&_&E3&_). done.
  - destruct HC as (_&_&_&_&_&E2&E3&_). destruct (a_freed c); [specialize (E3 eq_refl); lia|done].
Qed.

(** ... also when every [Arc] and every [Weak] is gone. *)
Lemma p_C57_freed_refuted : forall (PR : Profile), exists c,
  arc_reached 5 (s_down 0 ++ [LWeakDrop; LBeginX 0 CDrop; LEx 0 false; LEx 0 false; LEx 0 false]) c /\
  all_gone c /\ weaks c = 0 /\ happened is_destroy c = 1 /\ happened is_forget c = 0 /\ a_freed c = false.
Proof.
  intros PR. eexists. split; [split; [done|vm_compute; reflexivity]|]. split; [by repeat constructor|]. done.
Qed.

Lemma p_C58_exclusive : forall (PR : Profile) (T : Type) (x : T) ls c i h,
  arc_reached x ls c -> a_hs c !! i = Some h -> h_ex h = XMut ->
  alone i c /\ h_sh h = [] /\ happened is_forget c = 0 /\ a_data c = Alive /\ a_freed c = false.
Proof.
  intros PR T x ls c i h [Hl Hr] Hi Hx.
  destruct (any_run ls _ c (AInv_init x) eq_refl Hr) as [[HI H0]|HD].
  - change (asize (arc_init x)) with 1. lia.
  - destruct HI as (_&_&HP). destruct HP as [HA|[HB|HC]].
    + destruct HA as (Hd&Hf&Hs&Hp&Hlv&HK&Hw&Hz&Hlone&Hinc&E1&E2&E3&E4).
      pose proof (Hlone i h Hi) as H1. rewrite Hx in H1. specialize (H1 eq_refl).
      pose proof (owner_pos c i h Hi) as Ho. assert (Hoh : 1 <= own h) by (unfold own; rewrite Hx; simpl; lia).
      destruct (alone_one c i h Hlv Hi Hoh) as [Ha _]; [lia|]. split; [done|].
      pose proof (Forall_lookup_1 _ _ _ _ Hlv Hi) as [_ Hh]. split; [apply Hh; by rewrite Hx|].
      split; [|done]. rewrite leaks in Hs. lia.
    + destruct HB as (j&y&Hj&He&Ha&_). destruct (decide (i = j)) as [->|Hne].
      * rewrite Hj in Hi. injection Hi as <-. simpl in Hx. by subst y.
      * by rewrite (Ha _ _ Hne Hi) in Hx.
    + destruct HC as [Hg _]. by rewrite (Forall_lookup_1 _ _ _ _ Hg Hi) in Hx.
  - destruct HD as (_&_&Hq). pose proof (Forall_lookup_1 _ _ _ _ Hq Hi) as H. simpl in H. by rewrite Hx in H.
Qed.

Lemma x_C58_exclusive_ex : forall (PR : Profile), exists c,
  arc_reached 5 (s_clone 0 ++ s_drop_one 0 ++ [LBeginX 1 CGetMut; LEx 1 false; LEx 1 false; LEx 1 false]) c /\
  a_hs c = [gone; AHandle XMut []].
Proof. intros PR. eexists. split; [split; [done|vm_compute; reflexivity]|done]. Qed.

(** [get_mut] run without interruption gives the reference exactly to an only handle without [Weak]s,
    and otherwise leaves the counters as they were. *)
Lemma p_C58_get_mut : forall (PR : Profile) (T : Type) (x : T) ls c i (f1 f2 f3 : bool),
  arc_reached x ls c -> happened is_lost c = 0 -> a_hs c !! i = Some held ->
  a_weak c <> usize_max ->
  let c1 := goto i (if (a_strong c =? 1) && (a_weak c =? 0) then XMut else XHeld) c in
  exists ls', ls' = LBeginX i CGetMut :: (if a_weak c =? 0 then [LEx i f1; LEx i f2; LEx i f3] else [LEx i f1]) /\
    arun ls' c = Some (say (AGetMut ((a_strong c =? 1) && (a_weak c =? 0))) c1) /\
    ((a_strong c =? 1) && (a_weak c =? 0) = true ->
       alone i c /\ happened is_weak_made c = 0).
Proof.
  intros PR T x ls c i f1 f2 f3 Hr Hl Hi Hlk c1. eexists. split; [done|].
  destruct (reached_inv x ls c Hr Hl) as [(Hb&_&HP) _].
  assert (HA : PA c).
  { destruct HP as [HA|[HB|HC]]; [done| |].
    - destruct HB as (j&y&Hj&He&Ha&_). destruct (decide (i = j)) as [->|Hne].
      + rewrite Hj in Hi. by injection Hi as ->.
      + by pose proof (Ha _ _ Hne Hi).
    - destruct HC as [Hg _]. by pose proof (Forall_lookup_1 _ _ _ _ Hg Hi). }
  destruct HA as (Hd&Hf&Hs&Hp&Hlv&HK&Hw&Hz&Hlone&Hinc&E1&E2&E3&E4).
  assert (Hlt : (i < length (a_hs c))%nat) by (by eapply lookup_lt_Some).
  split.
  - subst c1. destruct c as [st wk vl dt fr hs lg]; simpl in *. subst dt fr.
    destruct (N.eqb_spec wk 0) as [->|Hwk]; simpl.
    + rewrite Hi. simpl. rewrite list_lookup_insert by done. simpl. unfold checked, mem_ok, goto, set_h; simpl.
      rewrite list_lookup_insert by (by rewrite insert_length). simpl.
      unfold checked, mem_ok, goto, set_h; simpl.
      rewrite list_lookup_insert by (by rewrite !insert_length). simpl.
      unfold checked, mem_ok, goto, set_h, say, set_weak, set_hs; simpl.
      rewrite !list_insert_insert, andb_true_r. done.
    + rewrite Hi. simpl. rewrite list_lookup_insert by done. simpl. unfold checked, mem_ok, goto, set_h; simpl.
      destruct (N.eqb_spec wk 0); [done|]. rewrite !list_insert_insert, andb_false_r. done.
  - intros H. apply andb_prop in H as [H1 H2]. apply N.eqb_eq in H1, H2.
    pose proof (owner_pos c i _ Hi) as Ho. change (own held) with 1 in Ho.
    destruct (alone_one c i _ Hlv Hi) as [Ha _]; [done|lia|]. split; [done|].
    destruct (sumN lk (a_hs c) =? 0); [by rewrite <- Hw|congruence].
Qed.

Lemma x_C58_get_mut_ex : forall (PR : Profile), exists c,
  arc_reached 5 (s_clone 0 ++ s_drop_one 0) c /\ a_hs c = [gone; held] /\ a_strong c = 1 /\ a_weak c = 0.
Proof. intros PR. eexists. split; [split; [done|vm_compute; reflexivity]|done]. Qed.

Lemma reached_PA (PR : Profile) (T : Type) (x : T) ls c i h :
  arc_reached x ls c -> happened is_lost c = 0 -> a_hs c !! i = Some h -> owns_x (h_ex h) = true -> PA c.
Proof.
  intros Hr Hl Hi Hx. destruct (reached_inv x ls c Hr Hl) as [(Hb&_&HP) _]. destruct HP as [HA|[HB|HC]]; [done| |].
  - destruct HB as (j&y&Hj&He&Ha&_). destruct (decide (i = j)) as [->|Hne].
    + rewrite Hj in Hi. injection Hi as <-. by destruct y.
    + by rewrite (Ha _ _ Hne Hi) in Hx.
  - destruct HC as [Hg _]. by rewrite (Forall_lookup_1 _ _ _ _ Hg Hi) in Hx.
Qed.

(** [downgrade] run without interruption returns, also after waiting for the counter to be unlocked. *)
Lemma p_C59_downgrade_partial : forall (PR : Profile) (T : Type) (x : T) ls c i h k s,
  arc_reached x ls c -> happened is_lost c = 0 -> a_hs c !! i = Some h -> h_ex h = XHeld ->
  h_sh h !! k = Some s -> s = SDown0 \/ s = SDown usize_max ->
  a_weak c <> usize_max ->
  exists c', arun [LSh i k false; LSh i k false] c = Some c' /\ a_log c' = a_log c ++ [AWeak] /\
    a_weak c' = a_weak c + 1 /\ a_strong c' = a_strong c.
Proof.
  intros PR T x ls c i h k s Hr Hl Hi Hx Hk Hs Hlk.
  assert (HA : PA c) by (eapply reached_PA; [done|done|done|by rewrite Hx]).
  destruct HA as (Hd&Hf&_). destruct c as [st wk vl dt fr hs lg]; simpl in *. subst dt fr.
  assert (Hlt : (i < length hs)%nat) by (by eapply lookup_lt_Some).
  assert (Hkt : (k < length (h_sh h))%nat) by (by eapply lookup_lt_Some).
  exists (say AWeak (send_ i (AHandle (h_ex h) (<[k := SDown wk]> (h_sh h))) k
    (set_weak (wk + 1) (sgoto i h k (SDown wk) (AConf st wk vl Alive false hs lg))))). split; [|done].
  rewrite Hi, Hk. apply N.eqb_neq in Hlk. destruct Hs as [-> | ->]; simpl.
  all: rewrite list_lookup_insert by done; simpl; rewrite list_lookup_insert by done; simpl.
  all: unfold checked, mem_ok; simpl; rewrite Hlk, N.eqb_refl; done.
Qed.

Lemma x_C59_downgrade_ex : forall (PR : Profile), exists c,
  arc_reached 5 (s_clone 0 ++ [LBeginX 0 CGetMut; LEx 0 false; LBeginS 1 CDowngrade; LSh 1 0 false; LSh 1 0 false;
    LEx 0 false; LEx 0 false]) c /\
  a_hs c = [held; AHandle XHeld [SDown usize_max]] /\ a_weak c = 0 /\ happened is_lost c = 0.
Proof. intros PR. eexists. split; [split; [done|vm_compute; reflexivity]|done]. Qed.

(** If the counter changed between the load and the exchange, [downgrade] keeps comparing with the old
    value: alone or not, the call cannot get out while the counter differs from it... *)
Lemma p_C59_stuck_refuted : forall (PR : Profile) (T : Type) (c : aconf T) i h k v flags,
  a_freed c = false -> a_hs c !! i = Some h -> h_sh h !! k = Some (SDown v) ->
  v <> usize_max -> a_weak c <> v -> arun (map (LSh i k) flags) c = Some c.
Proof.
  intros PR T c i h k v flags Hf Hi Hk Hv Hw. induction flags as [|f flags IH]; [done|].
  simpl. rewrite Hi, Hk. simpl. unfold checked, mem_ok. rewrite Hf. simpl.
  apply N.eqb_neq in Hv, Hw. rewrite Hv, Hw, andb_false_r. done.
Qed.

(** ... and two threads calling [downgrade] at the same time get there: every other call is over, the
    counter is not locked, and this one never returns. *)
Lemma p_C59_downgrade_refuted : forall (PR : Profile), exists c,
  arc_reached 5 [LBeginS 0 CDowngrade; LBeginS 0 CDowngrade; LSh 0 0 false; LSh 0 1 false; LSh 0 0 false] c /\
  a_hs c = [AHandle XHeld [SDown 0]] /\ a_weak c = 1 /\ happened is_weak_given c = 1 /\
  forall flags, arun (map (LSh 0 0) flags) c = Some c.
Proof.
  intros PR. eexists. split; [split; [done|vm_compute; reflexivity]|].
  split; [done|]. split; [done|]. split; [done|]. intros flags. by eapply p_C59_stuck_refuted.
Qed.

(** What [strong_count] returns, and the panic beyond [isize::MAX]. *)
Lemma p_C60_count_partial : forall (PR : Profile) (T : Type) (x : T) ls c,
  arc_reached x ls c -> happened is_lost c = 0 ->
  (forall i c', astep (LCounts i) c = Some c' -> exists w,
     a_log c' = a_log c ++ [AStrong (owners (a_hs c) + happened is_forget c + happened is_clone_panic c); AWeakCount w]) /\
  (forall i h k f1 f2, a_hs c !! i = Some h -> h_ex h = XHeld -> h_sh h !! k = Some SClone0 ->
     isize_max < a_strong c -> exists c', arun [LSh i k f1; LSh i k f2] c = Some c' /\
       a_log c' = a_log c ++ [AClonePanic] /\ length (a_hs c') = length (a_hs c)) /\
  (forall i h k f1 f2, a_hs c !! i = Some h -> h_ex h = XHeld -> h_sh h !! k = Some SClone0 ->
     a_strong c <= isize_max -> exists c' hs', arun [LSh i k f1; LSh i k f2] c = Some c' /\
       a_log c' = a_log c ++ [ACloneOk] /\ a_hs c' = hs' ++ [held] /\ length hs' = length (a_hs c)).
Proof.
  intros PR T x ls c Hr Hl. split; [|split].
  - intros i c' Hst. simpl in Hst. destruct (a_hs c !! i) as [h|] eqn:Hi; [|done].
    destruct h as [y sh]. destruct y; try done.
    assert (HA : PA c) by (by eapply (reached_PA _ _ _ _ _ i)).
    destruct HA as (Hd&Hf&Hs&_). unfold checked, mem_ok in Hst. rewrite Hf in Hst. injection Hst as <-. simpl.
    eexists. rewrite <- app_assoc. simpl. rewrite <- N.add_assoc, <- leaks, <- Hs. done.
  - intros i h k f1 f2 Hi Hx Hk Hm. assert (HA : PA c) by (eapply (reached_PA _ _ _ _ _ i); [done|done|done|by rewrite Hx]).
    destruct HA as (Hd&Hf&_). destruct c as [st wk vl dt fr hs lg]; simpl in *. subst dt fr.
    assert (Hlt : (i < length hs)%nat) by (by eapply lookup_lt_Some).
    assert (Hkt : (k < length (h_sh h))%nat) by (by eapply lookup_lt_Some).
    eexists. split.
    + rewrite Hi, Hk. simpl. rewrite list_lookup_insert by done. simpl. rewrite list_lookup_insert by done. simpl.
      assert (E : (max_refcount <? st) = true) by (apply N.ltb_lt; exact Hm). rewrite E. reflexivity.
    + split; [done|]. simpl. by rewrite !insert_length.
  - intros i h k f1 f2 Hi Hx Hk Hm. assert (HA : PA c) by (eapply (reached_PA _ _ _ _ _ i); [done|done|done|by rewrite Hx]).
    destruct HA as (Hd&Hf&_). destruct c as [st wk vl dt fr hs lg]; simpl in *. subst dt fr.
    assert (Hlt : (i < length hs)%nat) by (by eapply lookup_lt_Some).
    assert (Hkt : (k < length (h_sh h))%nat) by (by eapply lookup_lt_Some).
    eexists _, _. split.
    + rewrite Hi, Hk. simpl. rewrite list_lookup_insert by done. simpl. rewrite list_lookup_insert by done. simpl.
      assert (E : (max_refcount <? st) = false) by (apply N.ltb_ge; exact Hm). rewrite E. reflexivity.
    + split; [done|]. split; [done|]. simpl. by rewrite !insert_length.
Qed.

Lemma x_C60_count_ex : forall (PR : Profile), exists c c',
  arc_reached 5 (s_clone 0 ++ s_clone 1 ++ [LBeginX 0 CForget; LBeginX 1 CDrop; LBeginS 2 CClone]) c /\
  happened is_lost c = 0 /\ a_hs c = [gone; AHandle XDrop []; AHandle XHeld [SClone0]] /\ a_strong c <= isize_max /\
  astep (LCounts 2) c = Some c' /\ a_log c' = a_log c ++ [AStrong 3; AWeakCount 0].
Proof.
  intros PR. eexists _, _. split; [split; [done|vm_compute; reflexivity]|].
  split; [done|]. split; [done|]. split; [done|]. split; [vm_compute; reflexivity|done].
Qed.

(** A [clone] that panics has counted: after 2^63 - 1 forgotten clones and 2^63 panicking ones the count
    is zero although a handle exists, and dropping a further clone destroys the value under it. *)
Section wrap.
  Context {PR : Profile}.
  Notation C s hs lg := (AConf s 0 5 Alive false hs lg : aconf N).

  Lemma forgets n : N.of_nat n < 2 ^ 63 -> exists ls lg,
    arun ls (arc_init 5) = Some (C (N.of_nat n + 1) (held :: replicate n gone) lg) /\ cnt is_bad lg = 0.
  Proof.
    induction n as [|n IH]; intros Hn; [by exists [], []|].
    destruct IH as (ls&lg&E&Hb); [lia|].
    exists (ls ++ s_clone 0 ++ [LBeginX (S n) CForget]). eexists. split.
    - apply arun_app. eexists. split; [exact E|]. simpl.
      assert (Hm : (max_refcount <? N.of_nat n + 1) = false) by (apply N.ltb_ge; unfold max_refcount; lia).
      rewrite Hm. simpl. rewrite lookup_app_r by (rewrite replicate_length; lia).
      rewrite replicate_length, Nat.sub_diag. simpl.
      unfold goto, set_h, set_hs, say; simpl. f_equal. f_equal.
      + unfold wadd. rewrite N.mod_small by lia. lia.
      + f_equal. rewrite insert_app_r_alt by (rewrite replicate_length; lia).
        rewrite replicate_length, Nat.sub_diag. simpl. by rewrite <- replicate_cons_app.
    - rewrite !cnt_snoc, Hb. done.
  Qed.
  Lemma panics b m tl lg0 : b = 2 ^ 63 -> N.of_nat m <= 2 ^ 63 -> cnt is_bad lg0 = 0 -> exists ls lg,
    arun ls (C b (held :: tl) lg0) = Some (C (wadd b (N.of_nat m)) (held :: tl) lg) /\ cnt is_bad lg = 0.
  Proof.
    intros Hbb Hm Hb0. induction m as [|m IH].
    { exists [], lg0. split; [|done]. simpl. unfold wadd. rewrite N.add_0_r, N.mod_small by lia. done. }
    destruct IH as (ls&lg&E&Hb); [lia|]. exists (ls ++ s_clone 0). eexists. split.
    - apply arun_app. eexists. split; [exact E|].
      assert (Ew : wadd b (N.of_nat m) = b + N.of_nat m) by (unfold wadd; apply N.mod_small; lia).
      rewrite Ew. assert (Hx : (max_refcount <? b + N.of_nat m) = true) by (apply N.ltb_lt; unfold max_refcount; lia).
      unfold s_clone. cbn [arun astep a_hs lookup list_lookup begin_shared app set_h set_hs insert list_insert].
      cbn [a_hs lookup list_lookup h_sh step_shared checked mem_ok negb a_freed sgoto set_h set_hs set_strong
        a_strong a_weak a_val a_data a_log insert list_insert h_ex].
      rewrite Hx. cbn [send_ set_h set_hs a_hs h_ex h_sh say a_strong a_weak a_val a_data a_log a_freed delete list_delete insert list_insert].
      unfold sgoto, send_, say, set_h, set_hs, set_strong. cbn [a_strong a_weak a_val a_data a_freed a_hs a_log h_ex h_sh delete list_delete insert list_insert]. f_equal. f_equal. unfold wadd. f_equal. lia.
    - rewrite !cnt_snoc, Hb. done.
  Qed.
  Lemma after_wrap tl lg : cnt is_bad lg = 0 -> exists ls c,
    arun ls (C 0 (held :: tl) lg) = Some c /\ happened is_bad c = 1.
  Proof.
    intros Hb. set (j := S (length tl)).
    exists (s_clone 0 ++ s_drop_one j ++ [LEx j false; LBeginS 0 CRead; LSh 0 0 true]).
    assert (Hj : forall h, (AHandle XHeld [] :: tl ++ [h]) !! j = Some h).
    { intros h. subst j. simpl. rewrite lookup_app_r, Nat.sub_diag by lia. done. }
    assert (Hj' : forall h h', <[j := h']> (AHandle XHeld [] :: tl ++ [h]) = AHandle XHeld [] :: tl ++ [h']).
    { intros h h'. subst j. simpl. f_equal. rewrite insert_app_r_alt, Nat.sub_diag by lia. done. }
    assert (E1 : arun (s_clone 0) (C 0 (held :: tl) lg) = Some (C 1 (held :: tl ++ [held]) (lg ++ [ACloneOk]))) by done.
    assert (E2 : arun (s_drop_one j) (C 1 (held :: tl ++ [held]) (lg ++ [ACloneOk])) =
      Some (C 0 (held :: tl ++ [AHandle XDestroy []]) (lg ++ [ACloneOk]))).
    { unfold s_drop_one, arun, astep. simpl a_hs. rewrite Hj. unfold begin_excl, goto, set_h, set_hs.
      cbn [a_hs a_strong a_weak a_val a_data a_freed a_log]. rewrite Hj', Hj.
      unfold step_excl, h_ex, checked, mem_ok, goto, set_h, set_hs, set_strong.
      cbn [a_hs a_strong a_weak a_val a_data a_freed a_log negb]. rewrite Hj'. done. }
    assert (E3 : arun [LEx j false] (C 0 (held :: tl ++ [AHandle XDestroy []]) (lg ++ [ACloneOk])) =
      Some (AConf 0 0 5 Destroyed false (held :: tl ++ [AHandle XLoadW []]) ((lg ++ [ACloneOk]) ++ [ADestroy]))).
    { unfold arun, astep. cbn [a_hs]. rewrite Hj.
      unfold step_excl, h_ex, checked, val_ok, say, goto, set_h, set_hs, set_data.
      cbn [a_hs a_strong a_weak a_val a_data a_freed a_log negb andb]. rewrite Hj'. done. }
    eexists. split.
    - apply arun_app. eexists. split; [exact E1|]. apply arun_app. eexists. split; [exact E2|].
      apply (arun_app [LEx j false]). eexists. split; [exact E3|]. reflexivity.
    - unfold happened. simpl. rewrite !cnt_snoc, Hb. done.
  Qed.
End wrap.

Lemma as_nat k : exists n, N.of_nat n = k.
Proof. exists (N.to_nat k). apply N2Nat.id. Qed.

Lemma p_C60_wrap_refuted : forall (PR : Profile), exists ls (c : aconf N),
  arun ls (arc_init 5) = Some c /\ a_strong c = 0 /\ a_hs c !! 0%nat = Some held /\ happened is_bad c = 0 /\
  exists ls' c', arun ls' c = Some c' /\ happened is_bad c' = 1.
Proof.
  intros PR. destruct (as_nat (2 ^ 63 - 1)) as [n Hn]. destruct (as_nat (2 ^ 63)) as [m Hm].
  destruct (forgets n) as (ls1&lg1&E1&B1); [lia|].
  destruct (panics (N.of_nat n + 1) m (replicate n gone) lg1) as (ls2&lg2&E2&B2); [lia|lia|done|].
  assert (Ew : wadd (N.of_nat n + 1) (N.of_nat m) = 0).
  { rewrite Hn, Hm. reflexivity. }
  rewrite Ew in E2. exists (ls1 ++ ls2). eexists. split; [apply arun_app; eexists; split; [exact E1|exact E2]|].
  split; [done|]. split; [done|]. split; [done|].
  by apply after_wrap.
Qed.

Lemma p_C61_unwrap_partial : forall (PR : Profile) (T : Type) (x : T) ls c,
  arc_reached x ls c -> happened is_lost c = 0 ->
  (* at most one call gets the value, and then it is never destroyed *)
  happened is_take c <= 1 /\ (happened is_take c = 1 -> happened is_destroy c = 0) /\
  (* the only handle gets it; any other handle is given back, nothing else changing *)
  (forall i h f f', a_hs c !! i = Some h -> h_ex h = XCas ->
     (alone i c /\ happened is_forget c = 0 /\ happened is_clone_panic c = 0 ->
        exists c', arun [LEx i f; LEx i f'] c = Some c' /\ a_log c' = a_log c ++ [ATake (a_val c)]) /\
     (~ (alone i c /\ happened is_forget c = 0 /\ happened is_clone_panic c = 0) ->
        astep (LEx i f) c = Some (say AUnwrapErr (goto i XHeld c)))).
Proof.
  intros PR T x ls c Hr Hl. destruct (p_C55_safe_partial PR T x ls c Hr Hl) as (_&Hd&_).
  assert (Ht : happened is_take c <= happened is_out c).
  { unfold happened. induction (a_log c) as [|e l IH]; simpl; [lia|]. destruct e; simpl; lia. }
  split; [lia|]. split; [lia|]. intros i h f f' Hi Hx.
  assert (HA : PA c) by (eapply (reached_PA _ _ _ _ _ i); [done|done|done|by rewrite Hx]).
  destruct HA as (Hdt&Hf&Hs&Hp&Hlv&HK&Hw&Hz&Hlone&Hinc&E1&E2&E3&E4).
  pose proof (Forall_lookup_1 _ _ _ _ Hlv Hi) as [_ Hh].
  assert (Hsh : h_sh h = []) by (apply Hh; by rewrite Hx).
  assert (Ho : own h = 1) by (unfold own; by rewrite Hx, Hsh).
  rewrite leaks in Hs. assert (Hlt : (i < length (a_hs c))%nat) by (by eapply lookup_lt_Some). split.
  - intros (Ha&F1&F2). assert (Es : a_strong c = 1).
    { unfold owners in Hs. rewrite (alone_sum own c i h eq_refl Ha Hi) in Hs. lia. }
    simpl. rewrite Hi. simpl. rewrite Hx. simpl. unfold checked, mem_ok. rewrite Hf, Es. simpl.
    rewrite list_lookup_insert by done. simpl. unfold checked, val_ok. simpl. rewrite Hf, Hdt. simpl.
    eexists. split; [done|]. done.
  - intros Hn. simpl. rewrite Hi, Hx. simpl. unfold checked, mem_ok. rewrite Hf. simpl.
    destruct (N.eqb_spec (a_strong c) 1) as [E|E]; [|done]. exfalso. apply Hn.
    pose proof (owner_pos c i h Hi) as Op. destruct (alone_one c i h Hlv Hi) as [Ha _]; [lia|lia|].
    split; [done|lia].
Qed.

Lemma x_C61_unwrap_ex : forall (PR : Profile), exists c c',
  arc_reached 5 (s_clone 0 ++ [LBeginX 0 CUnwrap; LBeginX 1 CUnwrap]) c /\ happened is_lost c = 0 /\
  a_hs c = [AHandle XCas []; AHandle XCas []] /\
  arun [LEx 0 false; LBeginX 0 CDrop; LEx 0 false; LEx 1 false; LEx 1 false; LEx 1 false; LEx 1 false] c = Some c' /\
  a_log c' = [ACloneOk; AUnwrapErr; ATake 5; AFree].
Proof.
  intros PR. eexists _, _. split; [split; [done|vm_compute; reflexivity]|]. split; [done|]. split; [done|].
  split; [vm_compute; reflexivity|done].
Qed.

(** After the refusal described at C55 the count is wrong: [try_unwrap] succeeds although there are two
    handles, and hands out a value that was moved out before. *)
Lemma p_C61_unwrap_refuted : forall (PR : Profile), exists c c',
  arc_reached 5 (s_lost ++ s_clone 0 ++ [LBeginX 0 CUnwrap; LEx 0 false]) c /\
  a_hs c = [AHandle XTake []; held] /\ happened is_bad c = 0 /\
  astep (LEx 0 false) c = Some c' /\ happened is_bad c' = 1.
Proof.
  intros [[] st]; eexists _, _; (split; [split; [done|vm_compute; reflexivity]|]);
    (split; [done|]); (split; [done|]); (split; [vm_compute; reflexivity|done]).
Qed.

(** [weak_count] is the number of [Weak]s ever made by [downgrade] and [make_mut], or zero while
    [get_mut] is looking. *)
Lemma p_C62_weak_count_partial : forall (PR : Profile) (T : Type) (x : T) ls c,
  arc_reached x ls c -> happened is_lost c = 0 ->
  forall i c', astep (LCounts i) c = Some c' -> exists n,
    a_log c' = a_log c ++ [AStrong n; AWeakCount (happened is_weak_made c)].
Proof.
  intros PR T x ls c Hr Hl i c' Hst. simpl in Hst. destruct (a_hs c !! i) as [h|] eqn:Hi; [|done].
  destruct h as [y sh]. destruct y; try done.
  destruct (reached_inv x ls c Hr Hl) as [_ Hsz].
  assert (HA : PA c) by (by eapply (reached_PA _ _ _ _ _ i)).
  destruct HA as (Hd&Hf&Hs&_&_&_&Hw&Hz&_). unfold checked, mem_ok in Hst. rewrite Hf in Hst. injection Hst as <-. simpl.
  eexists. rewrite <- app_assoc. simpl. do 3 f_equal. f_equal.
  destruct Hr as [Hlen _]. destruct (N.eqb_spec (sumN lk (a_hs c)) 0) as [E|E].
  - rewrite Hw. destruct (N.eqb_spec (happened is_weak_made c) usize_max) as [E'|E']; [|done].
    unfold asize in Hsz. lia.
  - rewrite Hw, N.eqb_refl. by rewrite Hz.
Qed.

Lemma x_C62_weak_count_ex : forall (PR : Profile), exists c c',
  arc_reached 5 (s_down 0 ++ s_down 0) c /\ happened is_lost c = 0 /\ astep (LCounts 0) c = Some c' /\
  weaks c = 2 /\ a_log c' = a_log c ++ [AStrong 1; AWeakCount 2].
Proof.
  intros PR. eexists _, _. split; [split; [done|vm_compute; reflexivity]|]. split; [done|].
  split; [vm_compute; reflexivity|]. done.
Qed.

(** A dropped [Weak] is still counted. *)
Lemma p_C62_weak_count_refuted : forall (PR : Profile), exists c c',
  arc_reached 5 (s_down 0 ++ [LWeakDrop]) c /\ weaks c = 0 /\ astep (LCounts 0) c = Some c' /\
  a_log c' = a_log c ++ [AStrong 1; AWeakCount 1].
Proof.
  intros PR. eexists _, _. split; [split; [done|vm_compute; reflexivity]|]. split; [done|].
  split; [vm_compute; reflexivity|]. done.
Qed.
