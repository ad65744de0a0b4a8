(** Proofs of the statement collected in PropertiesCalmRc.v: [Rc] without [Weak]s. *)
From Verif Require Export RcFacts.
From Coq Require Import ZifyBool ZifyNat ZifyN.
Ltac Zify.zify_post_hook ::= idtac.

(** * C79 *)

Section no_weak.
  Context {T : Type} (clone : T -> option T).
  Implicit Types (st : rcspec T).
  Definition no_weak st : Prop := forall i c, s_tab st !! i <> Some (Some (SWeak (Some c))).
  Lemma no_weak_count st c : no_weak st -> weak_of st c = 0.
  Proof.
    intros H. unfold weak_of. destruct (N.eq_0_gt_0_cases (cnt (fun h => bool_decide (h = Some (SWeak (Some c)))) (s_tab st)))
      as [?|(i&h&Hi&Hh)%cnt_pos]; [done|]. apply bool_decide_eq_true in Hh as ->. by eapply H in Hi.
  Qed.
  Lemma no_weak_add st h : no_weak st -> (forall c, h <> SWeak (Some c)) -> no_weak (add_handle h st).
  Proof.
    intros H Hh i c. unfold add_handle. simpl. intros [Hi|[_ Hi]]%lookup_app_Some; [by eapply H|].
    apply list_lookup_singleton_Some in Hi as [_ [= ->]]. by eapply Hh.
  Qed.
  Lemma no_weak_set st k h : no_weak st -> (forall c, h <> Some (SWeak (Some c))) -> no_weak (set_handle k h st).
  Proof.
    intros H Hh i c. unfold set_handle. simpl.
    intros [(->&[= ->]&_)|[_ Hi]]%list_lookup_insert_Some; [by eapply Hh|by eapply H].
  Qed.
  Lemma no_weak_step r st op o st' : no_weak st -> (forall i, op <> RDowngrade i) ->
    rspec clone r st op = (o, st') -> no_weak st'.
  Proof.
    intros Hn Hop E. destruct op; simpl in E; try by destruct (Hop _ eq_refl).
    all: repeat case_match; simplify_eq; auto.
    all: repeat first [apply no_weak_add; [|by intros ? [=]] | apply no_weak_set; [|by intros ? [=]]]; auto.
    all: match goal with H : s_tab _ !! ?i = Some (Some (SWeak ?o)) |- _ =>
           apply no_weak_add; [done|]; intros c [= ->]; by eapply Hn end.
  Qed.
  Lemma no_weak_trace st ops refs outs st' : rtrace clone st ops refs outs st' -> no_weak st ->
    (forall i, RDowngrade i ∉ ops) -> no_weak st'.
  Proof.
    induction 1 as [|st op ops r rs o outs st1 st2 Hno Hs Hd Ht IH]; [done|]. intros Hn Hops. apply IH.
    - eapply no_weak_step; [done| |exact Hs]. intros i ->. apply (Hops i), elem_of_cons. by left.
    - intros i Hi. apply (Hops i), elem_of_cons. by right.
  Qed.
  Lemma no_weak_orphans st op : no_weak st -> ~ orphans st op.
  Proof. intros Hn (i&c&_&_&_&H). by rewrite no_weak_count in H. Qed.
End no_weak.

(** Every history of [Rc]s without [downgrade] does, call by call, what the specification of shared
    cells says: reads see the shared value, counts are exact, [get_mut] and [try_unwrap] succeed
    exactly for the only handle, [make_mut] copies exactly when shared; panics come only from
    [Clone] of a value and refused allocations. *)
Lemma p_C79_rc_history : forall (EN : Env) (T : Type) (EL : Elem T) (w0 : world (rcbox T)) ops,
  (forall b, next_id w0 <= b -> heap w0 !! b = None) -> llen ops + 2 <= usize_max ->
  (forall i, RDowngrade i ∉ ops) ->
  exists refs outs st tab w, rrun ops ([], ([], w0)) = (outs, (tab, ([], w))) /\
    rtrace t_clone (RcSpec [] []) ops refs outs st /\ length outs = length ops /\
    Forall (fun r => r = None \/ r = Some PUnwrap \/ r = Some PNoEnv) refs /\
    ((forall n k, e_aok n k = true) -> is_Some (cur_scope w0) -> Forall (eq None) refs).
Proof.
  intros EN T EL w0 ops Hf Hl Hops.
  destruct (p_C49_counts_partial EN T EL w0 ops Hf Hl) as (ops1&ops2&refs&outs&st&s&->&Ht&E&Hend&Hr&Hal).
  assert (no_weak st) as Hn.
  { eapply no_weak_trace; [exact Ht|by intros i c|]. intros i Hi. apply (Hops i), elem_of_app. by left. }
  destruct Hend as [->|(op&rest&->&Ho)]; [|by apply no_weak_orphans in Ho].
  rewrite app_nil_r in *. destruct s as [tab [d w]].
  assert (rc_reached w0 ops1 tab d w) as Hre by (split; [done|]; split; [done|]; by exists outs).
  destruct (rc_reached_inv _ _ _ _ _ Hre) as (_&->&_&_).
  exists refs, outs, st, tab, w. split; [done|]. split; [done|]. split; [|done].
  clear -Ht. induction Ht; simpl; [done|by f_equal].
Qed.
Lemma x_C79_rc_history_ex :
  let ops := [RNew 5; RClone 0; RCounts 1; RGetMut 0 6; RMakeMut 1 7; RRead 0; RRead 1; RTryUnwrap 1; RWNew; RWUpgrade 2] in
  (forall b, next_id wr_start <= b -> heap wr_start !! b = None) /\ (forall i, RDowngrade i ∉ ops) /\
  fst (rdemo env_debug ops)
  = [Ret RDone; Ret RDone; Ret (RNums 2 0); Ret (RMaybe None); Ret (RGot 5); Ret (RGot 5); Ret (RGot 7);
     Ret (RMaybe (Some 7)); Ret RDone; Ret (RBool false)].
Proof.
  split; [apply wr_start_fresh|]. split; [|by vm_compute].
  intros i Hi. repeat (apply elem_of_cons in Hi as [Hi|Hi]; [done|]). by apply elem_of_nil in Hi.
Qed.
