(** Small specifications on plain lists, independent of the model. *)
From Verif Require Import Base.

Section seq.
  Context {T : Type}.
  Implicit Types xs ys : list T.

  (** [retain]: the predicate may keep state; it is asked once about each element, in order.
      The result is its final state, the accepted elements and the rejected ones. *)
  Fixpoint retained {St} (f : St -> T -> St * bool) (st : St) xs : St * list T * list T :=
    match xs with
    | [] => (st, [], [])
    | x :: xs =>
        let '(st', b) := f st x in
        let '(st'', k, d) := retained f st' xs in
        if b then (st'', x :: k, d) else (st'', k, x :: d)
    end.

  (** [dedup]: [runs same xs ks ds]: [xs] is a sequence of maximal runs, each of elements that are
      the [same] as its first one; [ks] are the first elements and [ds] all the others. *)
  Inductive runs (same : T -> T -> bool) : list T -> list T -> list T -> Prop :=
  | runs_nil : runs same [] [] []
  | runs_run x r xs ks ds :
      Forall (fun y => same x y = true) r ->
      match xs with [] => True | y :: _ => same x y = false end ->
      runs same xs ks ds ->
      runs same (x :: r ++ xs) (x :: ks) (r ++ ds).

  (** The element at position 1 left out. *)
  Definition without_second xs : list T :=
    match xs with x :: _ :: xs => x :: xs | _ => xs end.

  (** A double-ended queue: [true] takes from the front, [false] from the back. *)
  Definition take_end (front : bool) xs : option T * list T :=
    if front then (head xs, tail xs) else (last xs, take (length xs - 1) xs).
  Fixpoint deque (cs : list bool) xs : list (option T) * list T :=
    match cs with
    | [] => ([], xs)
    | c :: cs =>
        let '(o, xs') := take_end c xs in
        let '(os, ys) := deque cs xs' in (o :: os, ys)
    end.
  (** No call takes from the back of an empty queue. *)
  Fixpoint deque_ok (cs : list bool) xs : Prop :=
    match cs with
    | [] => True
    | c :: cs => (c = false -> xs <> []) /\ deque_ok cs (snd (take_end c xs))
    end.

  (** Lexicographic order over an element comparison. *)
  Inductive lex (cmp : T -> T -> comparison) : list T -> list T -> comparison -> Prop :=
  | lex_eq xs ys : Forall2 (fun x y => cmp x y = Eq) xs ys -> lex cmp xs ys Eq
  | lex_shorter xs y ys zs : Forall2 (fun x y => cmp x y = Eq) xs zs ->
      lex cmp xs (zs ++ y :: ys) Lt
  | lex_longer xs y ys zs : Forall2 (fun x y => cmp x y = Eq) xs zs ->
      lex cmp (xs ++ y :: ys) zs Gt
  | lex_diff xs zs x y xs' zs' c : Forall2 (fun x y => cmp x y = Eq) xs zs ->
      cmp x y = c -> c <> Eq -> lex cmp (xs ++ x :: xs') (zs ++ y :: zs') c.
End seq.
