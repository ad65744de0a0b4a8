(** C59 and C62 without a bound on the length of a run: the counter of [Weak]s at its greatest value. *)
From Verif Require Import ArcFacts.

Section wrap.
  Context {PR : Profile}.

  (** One [Arc], [n] [Weak]s handed out. *)
  Definition given (n : nat) : aconf N := AConf 1 (N.of_nat n) 5 Alive false [held] (replicate n AWeak).
  Definition one_down : list (alabel N) := [LBeginS 0 CDowngrade; LSh 0 0 false; LSh 0 0 false].

  Lemma run_down n : N.of_nat n < usize_max -> arun one_down (given n) = Some (given (S n)).
  Proof.
    intros Hn. unfold one_down, given, arun. cbn. unfold checked, mem_ok. cbn.
    destruct (N.eqb_spec (N.of_nat n) usize_max); [lia|]. rewrite N.eqb_refl. cbn.
    unfold say, send_, set_h, set_hs, set_weak. cbn. rewrite <- replicate_S_end. cbn [replicate].
    do 2 f_equal. lia.
  Qed.
  Lemma run_downs n m : N.of_nat (n + m) <= usize_max ->
    arun (concat (replicate m one_down)) (given n) = Some (given (n + m)).
  Proof.
    revert n. induction m as [|m IH]; intros n Hn; [by rewrite Nat.add_0_r|].
    cbn [replicate concat]. apply arun_app. eexists. split; [apply run_down; lia|].
    rewrite IH by lia. do 2 f_equal. lia.
  Qed.
  Lemma weaks_given n : cnt is_weak_given (replicate n (@AWeak N)) = N.of_nat n.
  Proof. induction n as [|n IH]; [done|]. cbn [replicate]. change (1 + cnt is_weak_given (replicate n (@AWeak N)) = N.of_nat (S n)). rewrite IH. lia. Qed.
  Lemma weaks_kept n : cnt is_weak_drop (replicate n (@AWeak N)) = 0.
  Proof. induction n as [|n IH]; [done|]. exact IH. Qed.
End wrap.

(** With 2^64 - 1 [Weak]s the counter has the value that means "locked": [weak_count] gives zero and every later
    [downgrade] waits for ever. *)
Lemma p_C62_limit_refuted : forall (PR : Profile), exists ls (c : aconf N),
  arun ls (arc_init 5) = Some c /\ weaks c = usize_max /\ a_hs c = [held] /\
  (exists c', astep (LCounts 0) c = Some c' /\ a_log c' = a_log c ++ [AStrong 1; AWeakCount 0]) /\
  (forall flags, exists c', arun (LBeginS 0 CDowngrade :: LSh 0 0 false :: map (LSh 0 0) flags) c = Some c' /\
     a_hs c' = [AHandle XHeld [SDown usize_max]] /\ a_log c' = a_log c).
Proof.
  intros PR. destruct (as_nat usize_max) as [n Hn].
  exists (concat (replicate n one_down)), (given n).
  split; [apply (run_downs 0 n); cbn [Nat.add]; lia|].
  split; [unfold weaks, happened; cbn [a_log given]; rewrite weaks_given, weaks_kept; lia|]. split; [done|].
  unfold given. rewrite Hn. split.
  - eexists. split; [reflexivity|]. cbn [a_log say checked mem_ok a_freed negb]. rewrite <- app_assoc. done.
  - intros flags.
    set (c1 := AConf 1 usize_max 5 Alive false [AHandle XHeld [SDown usize_max]] (replicate n AWeak)).
    assert (Hl : forall fs, arun (map (LSh 0 0) fs) c1 = Some c1).
    { intros fs. induction fs as [|f fs IH]; [done|]. cbn [map arun].
      assert (E : astep (LSh 0 0 f) c1 = Some c1) by reflexivity. by rewrite E. }
    exists c1. split; [|done]. apply (arun_app [LBeginS 0 CDowngrade; LSh 0 0 false]).
    exists c1. split; [reflexivity|]. apply Hl.
Qed.
