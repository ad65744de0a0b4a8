(** Facts about destroying values whose destructors may panic. *)
From Verif Require Export VecProofs3 SpecDrop SpecPanic.
From Coq Require Import ZifyBool ZifyNat ZifyN.

Section settle.
  Context {EN : Env} {T : Type} {EL : Elem T}.
  Notation W := (world T).
  Implicit Types (w : W) (x : T) (l : list T).

  Definition drop_panics (x : T) : bool := t_needs_drop && t_drop_panics x.
  Lemma drops_until_up_to l :
    drops_until l = (up_to drop_panics 1 l, match culprits drop_panics l with [] => Ret tt | _ => Panic PDrop end).
  Proof.
    induction l as [|x l IH]; simpl; [done|]. fold (drop_panics x). destruct (drop_panics x); [done|]. by rewrite IH.
  Qed.
  Lemma drops_glue_up_to l :
    drops_glue true l = (up_to drop_panics 1 l, match culprits drop_panics l with [] => Panic PDrop | _ => Abort end) /\
    drops_glue false l = (up_to drop_panics 2 l,
      match culprits drop_panics l with [] => Ret tt | [_] => Panic PDrop | _ => Abort end).
  Proof.
    induction l as [|x l [IH1 IH2]]; simpl; [done|]. fold (drop_panics x). destruct (drop_panics x).
    - split; [done|]. rewrite IH1. by destruct (culprits drop_panics l).
    - by rewrite IH1, IH2.
  Qed.

  Lemma up_to_1_all l : culprits drop_panics l = [] -> up_to drop_panics 1 l = l.
  Proof.
    induction l as [|x l IH]; simpl; [done|]. destruct (drop_panics x); [done|]. intros H. by rewrite IH.
  Qed.
  Lemma up_to_2_all l : (length (culprits drop_panics l) <= 1)%nat -> up_to drop_panics 2 l = l.
  Proof.
    induction l as [|x l IH]; simpl; [done|]. destruct (drop_panics x); simpl.
    - intros H. rewrite up_to_1_all; [done|]. destruct (culprits drop_panics l); [done|]. simpl in H. lia.
    - intros H. by rewrite IH.
  Qed.
  Lemma culprits_app l1 l2 :
    culprits drop_panics (l1 ++ l2) = culprits drop_panics l1 ++ culprits drop_panics l2.
  Proof. induction l1 as [|x l1 IH]; simpl; [done|]. rewrite IH. by destruct (drop_panics x). Qed.
  Lemma culprits_quiet l : no_drop_panic -> culprits drop_panics l = [].
  Proof.
    intros H. induction l as [|x l IH]; simpl; [done|]. unfold drop_panics at 1.
    by rewrite H, andb_false_r.
  Qed.

  Notation settle := (settle drop_panics).
  Lemma settle_quiet {A} (o : res A) l : culprits drop_panics l = [] -> settle o l = o.
  Proof. intros H. unfold SpecPanic.settle. rewrite H. by destruct o. Qed.
  Lemma settle_nil {A} (o : res A) : settle o [] = o.
  Proof. by apply settle_quiet. Qed.
  Lemma settle_unwound {A} p x : (unwound p x : res A) = settle (Panic p) [x].
  Proof.
    unfold unwound, SpecPanic.settle. simpl. fold (drop_panics x). by destruct (drop_panics x).
  Qed.
  Lemma settle_drop_res x : drop_res x = settle (Ret tt) [x].
  Proof.
    unfold drop_res, SpecPanic.settle. simpl. fold (drop_panics x). by destruct (drop_panics x).
  Qed.
  Lemma settle_glue l : snd (drops_glue false l) = settle (Ret tt) l.
  Proof.
    destruct (drops_glue_up_to l) as [_ ->]. unfold SpecPanic.settle. simpl.
    by destruct (culprits drop_panics l) as [|? []].
  Qed.
  Lemma glue_all l : settle (Ret tt) l <> Abort -> fst (drops_glue false l) = l.
  Proof.
    intros H. destruct (drops_glue_up_to l) as [_ ->]. simpl. apply up_to_2_all.
    unfold SpecPanic.settle in H. destruct (culprits drop_panics l) as [|? []]; simpl; [lia|lia|done].
  Qed.
  Lemma settle_panic {A} p l : (settle (Panic p) l : res A) = match culprits drop_panics l with [] => Panic p | _ => Abort end.
  Proof. unfold SpecPanic.settle. by destruct (culprits drop_panics l) as [|? []]. Qed.
  Lemma settle_ret {A} (a : A) l : settle (Ret a) l =
    match culprits drop_panics l with [] => Ret a | [_] => Panic PDrop | _ => Abort end.
  Proof. unfold SpecPanic.settle. by destruct (culprits drop_panics l) as [|? []]. Qed.
  Lemma settle_ret_abort {A B} (a : A) (b : B) l :
    settle (Ret a) l <> Abort -> settle (Ret b) l <> Abort.
  Proof. rewrite !settle_ret. by destruct (culprits drop_panics l) as [|? []]. Qed.
  Lemma settle_panic_abort {A B} p l :
    settle (Panic p) l <> (Abort : res A) -> settle (Panic p) l <> (Abort : res B).
  Proof. rewrite !settle_panic. by destruct (culprits drop_panics l). Qed.

  (** What follows a call that unwinds, or that may unwind because of one destructor. *)
  Lemma bind_settle_panic {S A B} (m : M S A) (k : A -> M S B) s s' p l :
    m s = (settle (Panic p) l, s') -> bind m k s = (settle (Panic p) l, s').
  Proof. intros H. unfold bind. rewrite H, !settle_panic. by destruct (culprits drop_panics l). Qed.
  Lemma bind_settle_ret {S A B} (m : M S A) (b : B) s s' a l :
    m s = (settle (Ret a) l, s') -> bind m (fun _ => ret b) s = (settle (Ret b) l, s').
  Proof. intros H. unfold bind. rewrite H, !settle_ret. by destruct (culprits drop_panics l) as [|? []]. Qed.
  Lemma on_unwind_settle {S A} (m : M S A) c s p s' s'' l :
    m s = (Panic p, s') ->
    c s' = (match culprits drop_panics l with [] => Ret tt | _ => Panic PDrop end, s'') ->
    on_unwind m c s = (settle (Panic p) l, s'').
  Proof.
    intros Hm Hc. unfold on_unwind. rewrite Hm, Hc, settle_panic. by destruct (culprits drop_panics l).
  Qed.
  Lemma on_unwind_settle_glue {S A} (m : M S A) c s p s' s'' l :
    m s = (Panic p, s') -> c s' = (settle (Ret tt) l, s'') ->
    on_unwind m c s = (settle (Panic p) l, s'').
  Proof.
    intros Hm Hc. unfold on_unwind. rewrite Hm, Hc, settle_panic, settle_ret.
    by destruct (culprits drop_panics l) as [|? []].
  Qed.
End settle.
