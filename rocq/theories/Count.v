(** Counting and summing over lists. *)
From Verif Require Export Base.
From Coq Require Import ZifyBool ZifyNat ZifyN.

(** How many elements satisfy [f] (no counterpart in /repo/src). *)
Fixpoint cnt {A} (f : A -> bool) (l : list A) : N :=
  match l with [] => 0 | x :: l => (if f x then 1 else 0) + cnt f l end.

(** ** Counting *)
Section cnt.
  Context {A : Type} (f : A -> bool).
  Notation one b := (if b : bool then 1 else 0).
  Lemma cnt_app l k : cnt f (l ++ k) = cnt f l + cnt f k.
  Proof. induction l as [|x l IH]; simpl; lia. Qed.
  Lemma cnt_snoc l x : cnt f (l ++ [x]) = cnt f l + one (f x).
  Proof. rewrite cnt_app. simpl. lia. Qed.
  Lemma cnt_insert l i x y :
    l !! i = Some x -> cnt f (<[i := y]> l) + one (f x) = cnt f l + one (f y).
  Proof.
    revert i. induction l as [|z l IH]; intros [|i] H; try done; simpl in *.
    - injection H as ->. lia.
    - specialize (IH _ H). lia.
  Qed.
  Lemma cnt_lookup l i x : l !! i = Some x -> f x = true -> 1 <= cnt f l.
  Proof.
    revert i. induction l as [|z l IH]; intros [|i] H Hf; try done; simpl in *.
    - injection H as ->. rewrite Hf. lia.
    - specialize (IH _ H Hf). destruct (f z); lia.
  Qed.
  Lemma cnt_pos l : 0 < cnt f l -> exists i x, l !! i = Some x /\ f x = true.
  Proof.
    induction l as [|z l IH]; simpl; intros H; [lia|].
    destruct (f z) eqn:E; [by exists 0%nat, z|].
    destruct IH as (i&x&?&?); [lia|]. by exists (S i), x.
  Qed.
  Lemma cnt_two l i j x y :
    i <> j -> l !! i = Some x -> l !! j = Some y -> f x = true -> f y = true -> 2 <= cnt f l.
  Proof.
    revert i j. induction l as [|z l IH]; intros [|i] [|j] Hne Hx Hy Fx Fy; try done; simpl in *.
    - injection Hx as ->. rewrite Fx. pose proof (cnt_lookup _ _ _ Hy Fy). lia.
    - injection Hy as ->. rewrite Fy. pose proof (cnt_lookup _ _ _ Hx Fx). lia.
    - assert (i <> j) as Hij by congruence. specialize (IH i j Hij Hx Hy Fx Fy).
      destruct (f z); lia.
  Qed.
  Lemma cnt_le l : cnt f l <= llen l.
  Proof. induction l as [|x l IH]; simpl; [lia|]. destruct (f x); lia. Qed.
  Lemma cnt_delete l i x : l !! i = Some x -> cnt f (delete i l) + one (f x) = cnt f l.
  Proof.
    revert i. induction l as [|z l IH]; intros [|i] H; try done; simpl in *.
    - injection H as ->. lia.
    - specialize (IH _ H). lia.
  Qed.
  Lemma cnt_0 l : cnt f l = 0 -> Forall (fun x => f x = false) l.
  Proof.
    induction l as [|x l IH]; simpl; intros H; constructor; destruct (f x) eqn:E; try done; try lia.
    all: apply IH; lia.
  Qed.
End cnt.

(** ** Sums over lists *)
Fixpoint sumN {A} (f : A -> N) (l : list A) : N :=
  match l with [] => 0 | x :: l => f x + sumN f l end.
Section sum.
  Context {A : Type} (f : A -> N).
  Lemma sumN_app l k : sumN f (l ++ k) = sumN f l + sumN f k.
  Proof. induction l as [|x l IH]; simpl; lia. Qed.
  Lemma sumN_insert l i x y : l !! i = Some x -> sumN f (<[i := y]> l) + f x = sumN f l + f y.
  Proof.
    revert i. induction l as [|z l IH]; intros [|i] H; try done; simpl in *.
    - injection H as ->. lia.
    - specialize (IH _ H). lia.
  Qed.
  Lemma sumN_lookup l i x : l !! i = Some x -> f x <= sumN f l.
  Proof.
    revert i. induction l as [|z l IH]; intros [|i] H; try done; simpl in *.
    - injection H as ->. lia.
    - specialize (IH _ H). lia.
  Qed.
  Lemma sumN_two l i j x y : i <> j -> l !! i = Some x -> l !! j = Some y -> f x + f y <= sumN f l.
  Proof.
    revert i j. induction l as [|z l IH]; intros [|i] [|j] Hne Hx Hy; try done; simpl in *.
    - injection Hx as ->. pose proof (sumN_lookup _ _ _ Hy). lia.
    - injection Hy as ->. pose proof (sumN_lookup _ _ _ Hx). lia.
    - assert (i <> j) as Hij by congruence. specialize (IH i j Hij Hx Hy). lia.
  Qed.
  Lemma sumN_0 l : sumN f l = 0 -> Forall (fun x => f x = 0) l.
  Proof. induction l as [|x l IH]; simpl; intros H; constructor; [lia|]. apply IH. lia. Qed.
  Lemma sumN_zero l : Forall (fun x => f x = 0) l -> sumN f l = 0.
  Proof. induction 1; simpl; lia. Qed.
End sum.
