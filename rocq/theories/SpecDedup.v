(** What [dedup_by] and [dedup_by_key] should do when the closure also writes to the elements, and
    [retain] when something panics; on plain lists, independent of the model. *)
From Verif Require Import Base.

Section spec.
  Context {T : Type}.
  Implicit Types xs : list T.

  (** How a call with a closure and destructors ends. *)
  Inductive ending (St : Type) := Done (st : St) | ClosurePanicked | DestructorPanicked.
  Global Arguments Done {_} _.
  Global Arguments ClosurePanicked {_}.
  Global Arguments DestructorPanicked {_}.

  (** [dedup_by]: the closure is asked about each element and the element kept last ([h]); it may
      change both, and it may panic ([None]).  An element it accepts as the same is destroyed, as the
      closure left it; another one is kept and becomes the partner of the following ones.  The first
      panic ends the call.  The result: how it ended, each kept element with its value when it was
      kept ([b]) and when it was last the partner, and the destroyed ones. *)
  Fixpoint grouped {St} (panics : T -> bool) (f : St -> T -> T -> St * (T * T) * option bool)
    (st : St) (b h : T) xs : ending St * list (T * T) * list T :=
    match xs with
    | [] => (Done st, [(b, h)], [])
    | x :: xs =>
        let '(st', (x', h'), same) := f st x h in
        match same with
        | None => (ClosurePanicked, [(b, h')], [])
        | Some true =>
            if panics x' then (DestructorPanicked, [(b, h')], [x'])
            else let '(e, g, d) := grouped panics f st' b h' xs in (e, g, x' :: d)
        | Some false =>
            let '(e, g, d) := grouped panics f st' x' x' xs in (e, (b, h') :: g, d)
        end
    end.

  (** [dedup_by_key]: the key of each element, computed once in order, and the element as the key
      function left it. *)
  Fixpoint written {St K} (key : St -> T -> St * T * K) (st : St) xs : St * list (T * K) :=
    match xs with
    | [] => (st, [])
    | x :: xs =>
        let '(st', x', k) := key st x in
        let '(st'', ys) := written key st' xs in (st'', (x', k) :: ys)
    end.

  (** The same for a key function that may panic: the state is [None] then, and only the elements
      before the panicking call count. *)
  Fixpoint written_until {St K} (key : St -> T -> St * T * option K) (st : St) xs : option St * list (T * K) :=
    match xs with
    | [] => (Some st, [])
    | x :: xs =>
        match key st x with
        | (_, _, None) => (None, [])
        | (st', x', Some k) => let '(r, ys) := written_until key st' xs in (r, (x', k) :: ys)
        end
    end.

  (** [dedup_by_key] with any key function and any destructors, after an element with key [prev] was
      kept: an element with the same key is destroyed, another one is kept, until the first panic. *)
  Fixpoint keyed {St K} (panics : T -> bool) (same : K -> K -> bool) (key : St -> T -> St * T * option K)
    (st : St) (prev : K) xs : ending St * list T * list T :=
    match xs with
    | [] => (Done st, [], [])
    | x :: xs =>
        match key st x with
        | (_, _, None) => (ClosurePanicked, [], [])
        | (st', x', Some k) =>
            if same prev k then
              if panics x' then (DestructorPanicked, [], [x'])
              else let '(e, ks, d) := keyed panics same key st' prev xs in (e, ks, x' :: d)
            else let '(e, ks, d) := keyed panics same key st' k xs in (e, x' :: ks, d)
        end
    end.

  (** [retain] with a predicate and destructors that may panic: accepted elements are kept, the others
      are destroyed, until the first panic. *)
  Fixpoint sifted {St} (panics : T -> bool) (f : St -> T -> St * option bool) (st : St) xs
    : ending St * list T * list T :=
    match xs with
    | [] => (Done st, [], [])
    | x :: xs =>
        match f st x with
        | (_, None) => (ClosurePanicked, [], [])
        | (st', Some true) => let '(e, k, d) := sifted panics f st' xs in (e, x :: k, d)
        | (st', Some false) =>
            if panics x then (DestructorPanicked, [], [x])
            else let '(e, k, d) := sifted panics f st' xs in (e, k, x :: d)
        end
    end.
End spec.
