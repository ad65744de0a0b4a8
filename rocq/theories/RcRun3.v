(** Histories of [Rc] and [Weak] handles: induction over the calls. *)
From Verif Require Export RcRefine.
From Coq Require Import ZifyBool ZifyNat ZifyN.

Section rc_run3.
  Context {EN : Env} {T : Type} {EL : Elem T}.
  Local Existing Instance box_elem.
  Notation W := (world (rcbox T)).
  Notation Tab := (list (option handle)).
  Implicit Types (w : W) (b : N) (rb : rcbox T) (tab : Tab) (st : rcspec T).

  Lemma run_inv n0 ops tab w :
    inv n0 (tab, ([], w)) -> llen tab + llen ops + 2 <= usize_max ->
    exists outs tab' w', rrun ops (tab, ([], w)) = (outs, (tab', ([], w'))) /\
      inv n0 (tab', ([], w')) /\ extends w w' /\ Forall ok_out outs /\
      llen tab' <= llen tab + llen ops.
  Proof.
    revert tab w. induction ops as [|op ops IH]; intros tab w Hi Hl.
    { exists [], tab, w. split; [done|]. split; [done|]. split; [apply extends_refl|]. split; [constructor|simpl; lia]. }
    simpl in Hl. destruct (step_inv n0 op tab w Hi) as (o&tab1&w1&E&Hi1&He&Hl1&Ho); [lia|].
    assert (Hstop : (forall a, o <> Ret a) -> (forall p, o <> Panic p) ->
      rrun (op :: ops) (tab, ([], w)) = ([o], (tab1, ([], w1)))).
    { intros H1 H2. cbn [rrun]. rewrite E. destruct o; try done; [by destruct (H1 a)|by destruct (H2 p)]. }
    assert (Hgo : (exists a, o = Ret a) \/ (exists p, o = Panic p) ->
      exists outs s, rrun ops (tab1, ([], w1)) = (outs, s) /\
        rrun (op :: ops) (tab, ([], w)) = (o :: outs, s)).
    { intros H. destruct (rrun ops (tab1, ([], w1))) as [outs s] eqn:Er. exists outs, s.
      split; [done|]. cbn [rrun]. rewrite E. destruct H as [[a ->]|[p ->]]; by rewrite Er. }
    destruct (decide (is_Some (match o with Ret _ | Panic _ => Some tt | _ => None end))) as [Hd|Hd].
    - assert ((exists a, o = Ret a) \/ (exists p, o = Panic p)) as H.
      { destruct o; [left|right|by destruct Hd..]; by eexists. }
      destruct (IH tab1 w1 Hi1) as (outs&tab2&w2&E2&Hi2&He2&Ho2&Hl2); [lia|].
      destruct (Hgo H) as (outs'&s&E3&E4). rewrite E2 in E3. injection E3 as <- <-.
      exists (o :: outs), tab2, w2. split; [done|]. split; [done|]. split; [by eapply extends_trans|].
      split; [by constructor|simpl; lia].
    - exists [o], tab1, w1. split; [apply Hstop; intros ? ->; apply Hd; eauto|].
      split; [done|]. split; [done|]. split; [by repeat constructor|simpl; lia].
  Qed.

  Lemma inv_start w : fresh_ids w -> inv (next_id w) ([], ([], w)).
  Proof. intros Hf. split_and!; try done. intros b H1 H2. lia. Qed.

  Lemma R_start w : fresh_ids w -> R (next_id w) (RcSpec [] []) [] w.
  Proof. intros Hf. split_and!; try done; [simpl; lia|constructor]. Qed.

  Lemma rrun_cons_def op ops (s s1 s2 : list (option handle) * (list T * W)) o outs :
    rexec op s = (o, s1) -> defined_out o -> rrun ops s1 = (outs, s2) ->
    rrun (op :: ops) s = (o :: outs, s2).
  Proof. intros E Ho E2. cbn [rrun]. rewrite E. destruct o; try done; by rewrite E2. Qed.

  Lemma run_refines n0 ops st tab w :
    R n0 st tab w -> llen tab + llen ops + 2 <= usize_max ->
    exists ops1 ops2 refs outs st' tab' w', ops = ops1 ++ ops2 /\
      rtrace t_clone st ops1 refs outs st' /\
      rrun ops1 (tab, ([], w)) = (outs, (tab', ([], w'))) /\ R n0 st' tab' w' /\
      (ops2 = [] \/ exists op rest, ops2 = op :: rest /\ orphans st' op) /\
      Forall (fun r => r = None \/ refusal r) refs /\ (allocates w -> Forall (eq None) refs) /\
      llen tab' <= llen tab + llen ops1.
  Proof.
    revert st tab w. induction ops as [|op ops IH]; intros st tab w HR Hl.
    { exists [], [], [], [], st, tab, w. split; [done|]. split; [constructor|]. split; [done|].
      split; [done|]. split; [by left|]. split; [constructor|]. split; [constructor|simpl; lia]. }
    simpl in Hl.
    assert (Hdec : orphans st op \/ ~ orphans st op).
    { assert (Hcase : forall i, (forall y, op <> RDrop y \/ y = i) -> (forall y, op <> RTryUnwrap y \/ y = i) ->
        (forall k y, op <> RMakeMut k y \/ k = i) ->
        (op = RDrop i \/ op = RTryUnwrap i \/ exists y, op = RMakeMut i y) -> orphans st op \/ ~ orphans st op).
      { intros i H1 H2 H3 Hop. destruct (spec_rc_or st i) as [[c Hc]|Hc].
        2: { right. intros (k&c&Hk&Hc'&_). assert (k = i) as ->; [|by destruct (Hc c)].
             destruct Hk as [->|[->|[y ->]]].
             - by destruct (H1 k). - by destruct (H2 k). - by destruct (H3 k y). }
        destruct (N.eq_dec (strong_of st c) 1) as [E1|E1]; [destruct (N.eq_dec (weak_of st c) 0) as [E2|E2]|].
        2: { left. exists i, c. by split_and!. }
        all: right; intros (k&c'&Hk&Hc'&?&?).
        all: assert (k = i) as ->; [destruct Hk as [->|[->|[y ->]]];
             [by destruct (H1 k)|by destruct (H2 k)|by destruct (H3 k y)]|].
        all: assert (c' = c) as -> by congruence; done. }
      destruct op as [x|i|i|i|i|i|i y|i y|i|i j| |i|i|i|i|i j].
      3: { apply (Hcase i); try (intros; by left).
           intros z. destruct (decide (z = i)); [by right|left; congruence]. }
      7: { apply (Hcase i); try (intros; by left); [|right; right; by eexists].
           intros z y'. destruct (decide (z = i)); [by right|left; congruence]. }
      7: { apply (Hcase i); try (intros; by left); [|right; by left].
           intros z. destruct (decide (z = i)); [by right|left; congruence]. }
      all: right; intros (k&c&[?|[?|[? ?]]]&_); done. }
    destruct Hdec as [Ho|Ho].
    { exists [], (op :: ops), [], [], st, tab, w.
      split; [done|]. split; [constructor|]. split; [done|]. split; [done|].
      split; [right; by exists op, ops|]. split; [constructor|]. split; [constructor|simpl; lia]. }
    destruct (step_refines n0 st tab w op HR Ho) as (r&o&st1&tab1&w1&E&Es&HR1&Hd&Hr&Hal&Hcur&Hl1); [lia|].
    destruct (IH st1 tab1 w1 HR1) as (ops1&ops2&refs&outs&st2&tab2&w2&->&Ht&E2&HR2&Hend&Hrs&Hals&Hl2); [lia|].
    exists (op :: ops1), ops2, (r :: refs), (o :: outs), st2, tab2, w2.
    split; [done|]. split; [by econstructor|]. split; [by eapply rrun_cons_def|]. split; [done|].
    split; [done|]. split; [by constructor|]. split.
    - intros H. constructor; [by rewrite Hal|]. apply Hals. destruct H as [H1 H2].
      split; [done|by rewrite Hcur].
    - simpl; lia.
  Qed.

  (** Histories that stop before the end only at undefined behaviour. *)
  Lemma rrun_app_def ops1 ops2 (s s1 : list (option handle) * (list T * W)) outs1 :
    rrun ops1 s = (outs1, s1) -> Forall defined_out outs1 ->
    rrun (ops1 ++ ops2) s = (let '(outs2, s2) := rrun ops2 s1 in (outs1 ++ outs2, s2)).
  Proof.
    revert s outs1. induction ops1 as [|op ops1 IH]; intros s outs1 E Hd.
    { injection E as <- <-. simpl. by destruct (rrun ops2 s). }
    cbn [rrun app] in *. destruct (rexec op s) as [r s'].
    destruct r.
    1,2: destruct (rrun ops1 s') as [o1 s1'] eqn:E1; injection E as <- <-;
      inversion Hd; subst; rewrite (IH s' o1) by done; by destruct (rrun ops2 s1').
    all: injection E as <- <-; inversion Hd; done.
  Qed.
  Lemma rtrace_defined st ops refs outs st' : rtrace t_clone st ops refs outs st' -> Forall defined_out outs.
  Proof. induction 1; by constructor. Qed.

End rc_run3.
