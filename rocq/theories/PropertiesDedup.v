(** Property C119: dedup_by and dedup_by_key with closures that write; C15 for panicking predicates. *)
From Verif Require Import DedupFacts.

(** Exactly what [dedup_by] does with any closure and any destructors, panicking ones included, of the
    contents without their second element: the calls, the outcome and what is destroyed are right; of
    what the closure wrote to the kept elements only the writes to the first are in the vector, the
    others still have the value they had when they were kept.  After a panic the vector holds what was
    kept before. *)
Theorem C119_dedup_by_partial : forall (EN : Env) (T : Type) (EL : Elem T) (St : Type)
    (f : St -> T -> T -> St * (T * T) * option bool) st v (w : world T) x xs,
  0 < t_size -> reached v w (x :: xs) ->
  let '(e, g, d) := grouped (fun x => t_needs_drop && t_drop_panics x) f st x x (tail xs) in
  exists v' w',
    dedup_by f st (v, w) =
      (match e with Done st' => Ret st' | ClosurePanicked => Panic PUser | DestructorPanicked => Panic PDrop end,
       (v', w')) /\
    vec_as_slice v' w' = (Ret (match g with (_, h) :: g => h :: (fst <$> g) | [] => [] end), w') /\
    drops w' = drops w ++ d /\
    delete_ptr (vdata v') (heap w') = delete_ptr (vdata v) (heap w).
Proof. exact p_C119_dedup_by_partial. Qed.
Print Assumptions C119_dedup_by_partial.

Example C119_dedup_by_ex :
  let st := @demo env_debug N num_drop w_start [OPush 1; OPush 9; OPush 2; OPush 3; OPush 4; OPush 8; OPush 5] in
  @reached env_debug N num_drop (fst st) (snd st) [1; 9; 2; 3; 4; 8; 5] /\
  grouped (fun _ => false) soak tt 1 1 [2; 3; 4] = (Done tt, [(1, 3); (3, 7)], [2; 4]) /\
  grouped (fun _ => false) soak tt 1 1 [2; 3; 4; 8; 5] = (ClosurePanicked, [(1, 3); (3, 7)], [2; 4]) /\
  grouped (fun x => x =? 4) soak tt 1 1 [2; 3; 4; 8; 5] = (DestructorPanicked, [(1, 3); (3, 7)], [2; 4]) /\
  exists v' w', @dedup_by env_debug N vec (@vec_vecx env_debug N num_drop) unit soak tt st = (Panic PUser, (v', w')) /\
    fst (@vec_as_slice N num_drop v' w') = Ret [3; 3] /\ drops w' = [2; 4].
Proof. exact x_C119_dedup_by_ex. Qed.

(** With a closure that leaves the kept element alone every kept element is as it should be. *)
Theorem C119_dedup_by_reads_partial : forall (EN : Env) (T : Type) (EL : Elem T) (St : Type)
    (f : St -> T -> T -> St * (T * T) * option bool) st v (w : world T) x xs,
  0 < t_size -> reached v w (x :: xs) ->
  (forall st a b, snd (snd (fst (f st a b))) = b) ->
  let '(e, g, d) := grouped (fun x => t_needs_drop && t_drop_panics x) f st x x (tail xs) in
  exists v' w',
    dedup_by f st (v, w) =
      (match e with Done st' => Ret st' | ClosurePanicked => Panic PUser | DestructorPanicked => Panic PDrop end,
       (v', w')) /\
    vec_as_slice v' w' = (Ret (snd <$> g), w') /\ drops w' = drops w ++ d.
Proof. exact p_C119_dedup_by_reads_partial. Qed.
Print Assumptions C119_dedup_by_reads_partial.

Example C119_dedup_by_reads_ex :
  (forall (st : unit) (a b : N), snd (snd (fst (st, (a + 1, b), Some (a =? b)))) = b) /\
  grouped (fun _ => false) (fun (st : unit) a b => (st, (a + 1, b), Some (a =? b))) tt 1 1 [1; 2; 3; 4] =
    (Done tt, [(1, 1); (3, 3); (5, 5)], [2; 4]).
Proof. exact x_C119_dedup_by_reads_ex. Qed.

(** [dedup_by_key] with any key function that returns, also a writing one: the heads of the runs of
    equal keys of the written contents without their second element. *)
Theorem C119_dedup_by_key_partial : forall (EN : Env) (T : Type) (EL : Elem T) (St K : Type)
    (keq : K -> K -> bool) (key : St -> T -> St * T * K) st v (w : world T) xs,
  0 < t_size -> no_drop_panic -> reached v w xs ->
  let '(st', ys) := written key st (match xs with x :: _ :: zs => x :: zs | _ => xs end) in
  exists v' w' ks ds,
    dedup_by_key keq (fun st x => (fst (key st x), Some (snd (key st x)))) st (v, w) = (Ret st', (v', w')) /\
    runs (fun a b => keq (snd a) (snd b)) ys ks ds /\
    vec_as_slice v' w' = (Ret (fst <$> ks), w') /\ drops w' = drops w ++ (fst <$> ds) /\
    delete_ptr (vdata v') (heap w') = delete_ptr (vdata v) (heap w).
Proof. exact p_C119_dedup_by_key_partial. Qed.
Print Assumptions C119_dedup_by_key_partial.

Example C119_dedup_by_key_ex :
  let st := @demo env_debug N num_drop w_start [OPush 10; OPush 9; OPush 11; OPush 20] in
  let key := fun (n : N) (x : N) => (n + 1, x + 100, x / 10) in
  @reached env_debug N num_drop (fst st) (snd st) [10; 9; 11; 20] /\
  written key 0 [10; 11; 20] = (3, [(110, 1); (111, 1); (120, 2)]) /\
  exists v' w', @dedup_by_key env_debug N vec (@vec_vecx env_debug N num_drop) N N N.eqb
      (fun st x => (fst (key st x), Some (snd (key st x)))) 0 st = (Ret 3, (v', w')) /\
    fst (@vec_as_slice N num_drop v' w') = Ret [110; 120] /\ drops w' = [111].
Proof. exact x_C119_dedup_by_key_ex. Qed.

(** The same when the key function may panic: a panic on the first element leaves the vector as it
    is, a later one leaves what was kept of the elements before. *)
Theorem C119_dedup_by_key_panics_partial : forall (EN : Env) (T : Type) (EL : Elem T) (St K : Type)
    (keq : K -> K -> bool) (key : St -> T -> St * T * option K) st v (w : world T) x xs,
  0 < t_size -> no_drop_panic -> reached v w (x :: xs) ->
  match key st x with
  | (_, x', None) =>
      exists v' w', dedup_by_key keq key st (v, w) = (Panic PUser, (v', w')) /\
        vec_as_slice v' w' = (Ret (x' :: xs), w') /\ drops w' = drops w
  | (st1, x', Some k1) =>
      let '(r, ys) := written_until key st1 (tail xs) in
      exists v' w' ks ds,
        dedup_by_key keq key st (v, w) = (match r with Some st' => Ret st' | None => Panic PUser end, (v', w')) /\
        runs (fun a b => keq (snd a) (snd b)) ((x', k1) :: ys) ks ds /\
        vec_as_slice v' w' = (Ret (fst <$> ks), w') /\ drops w' = drops w ++ (fst <$> ds) /\
        delete_ptr (vdata v') (heap w') = delete_ptr (vdata v) (heap w)
  end.
Proof. exact p_C119_dedup_by_key_panics_partial. Qed.
Print Assumptions C119_dedup_by_key_panics_partial.

Example C119_dedup_by_key_panics_ex :
  let st := @demo env_debug N num_drop w_start [OPush 10; OPush 9; OPush 11; OPush 20; OPush 50; OPush 60] in
  let key := fun (n : N) (x : N) => (n + 1, x + 100, if x =? 50 then None else Some (x / 10)) in
  @reached env_debug N num_drop (fst st) (snd st) [10; 9; 11; 20; 50; 60] /\
  written_until key 1 [11; 20; 50; 60] = (None, [(111, 1); (120, 2)]) /\
  exists v' w', @dedup_by_key env_debug N vec (@vec_vecx env_debug N num_drop) N N N.eqb key 0 st =
      (Panic PUser, (v', w')) /\
    fst (@vec_as_slice N num_drop v' w') = Ret [110; 120] /\ drops w' = [111].
Proof. exact x_C119_dedup_by_key_panics_ex. Qed.

(** And when destructors may panic too. *)
Theorem C119_dedup_by_key_bombs_partial : forall (EN : Env) (T : Type) (EL : Elem T) (St K : Type)
    (keq : K -> K -> bool) (key : St -> T -> St * T * option K) st v (w : world T) x xs st1 x' k1,
  0 < t_size -> reached v w (x :: xs) -> key st x = (st1, x', Some k1) ->
  let '(e, ks, d) := keyed (fun x => t_needs_drop && t_drop_panics x) keq key st1 k1 (tail xs) in
  exists v' w',
    dedup_by_key keq key st (v, w) =
      (match e with Done st' => Ret st' | ClosurePanicked => Panic PUser | DestructorPanicked => Panic PDrop end,
       (v', w')) /\
    vec_as_slice v' w' = (Ret (x' :: ks), w') /\ drops w' = drops w ++ d /\
    delete_ptr (vdata v') (heap w') = delete_ptr (vdata v) (heap w).
Proof. exact p_C119_dedup_by_key_bombs_partial. Qed.
Print Assumptions C119_dedup_by_key_bombs_partial.

Example C119_dedup_by_key_bombs_ex :
  let st := @demo env_debug N num_bomb w_start [OPush 10; OPush 9; OPush 11; OPush 20; OPush 13; OPush 12; OPush 14] in
  let key := fun (n : N) (x : N) => (n + 1, x, Some (x / 10)) in
  @reached env_debug N num_bomb (fst st) (snd st) [10; 9; 11; 20; 13; 12; 14] /\
  keyed (@t_drop_panics N num_bomb) N.eqb key 1 1 [11; 20; 13; 12; 14] = (Done 6, [20; 13], [11; 12; 14]) /\
  keyed (@t_drop_panics N num_bomb) N.eqb key 1 1 [11; 13; 20] = (DestructorPanicked, [], [11; 13]).
Proof. exact x_C119_dedup_by_key_bombs_ex. Qed.

(** A value the closure puts in place of a kept element other than the first is lost, and the element
    it took out (here its state records it) stays in the vector: dropping the vector destroys it
    although the closure owns it. *)
Theorem C119_replace_refuted : forall (EN : Env) (T : Type) (EL : Elem T) v (w : world T) a b c d new,
  0 < t_size -> no_drop_panic -> reached v w [a; b; c; d] ->
  let f := fun (st : nat * list T) (x k : T) =>
    match st with
    | (O, took) => ((1%nat, took), (x, k), Some false)
    | (S _, took) => ((2%nat, k :: took), (x, new), Some true)
    end in
  exists v' w' w2,
    dedup_by f (O, []) (v, w) = (Ret (2%nat, [c]), (v', w')) /\
    vec_as_slice v' w' = (Ret [a; c], w') /\
    vec_drop_val v' w' = (Ret tt, w2) /\ drops w2 = drops w ++ [d; a; c].
Proof. exact p_C119_replace_refuted. Qed.
Print Assumptions C119_replace_refuted.

Example C119_replace_ex :
  let st := @demo env_debug N num_drop w_start [OPush 1; OPush 2; OPush 3; OPush 4] in
  @reached env_debug N num_drop (fst st) (snd st) [1; 2; 3; 4].
Proof. exact x_C119_replace_ex. Qed.

(** [retain] with any predicate and any destructors, panicking ones included.  A panic of the
    predicate on the first element leaves the vector as it is; otherwise the outcome, what is kept and
    what is destroyed are right, up to the second element, which is lost when the first is kept. *)
Theorem C15_retain_panics_partial : forall (EN : Env) (T : Type) (EL : Elem T) (St : Type)
    (f : St -> T -> St * option bool) st v (w : world T) x xs,
  0 < t_size -> reached v w (x :: xs) ->
  let ys := match snd (f st x) with Some true => x :: tail xs | _ => x :: xs end in
  let '(e, k, d) := sifted (fun x => t_needs_drop && t_drop_panics x) f st ys in
  exists v' w',
    retain f st (v, w) =
      (match e with Done st' => Ret st' | ClosurePanicked => Panic PUser | DestructorPanicked => Panic PDrop end,
       (v', w')) /\
    vec_as_slice v' w' = (Ret (match snd (f st x) with None => x :: xs | Some _ => k end), w') /\
    drops w' = drops w ++ d /\
    delete_ptr (vdata v') (heap w') = delete_ptr (vdata v) (heap w).
Proof. exact p_C15_retain_panics_partial. Qed.
Print Assumptions C15_retain_panics_partial.

Example C15_retain_panics_ex :
  let st := @demo env_debug N num_drop w_start [OPush 1; OPush 9; OPush 2; OPush 3; OPush 8; OPush 5] in
  let f := fun (n : N) (x : N) => (n + 1, if x =? 8 then None else Some (N.odd x)) in
  @reached env_debug N num_drop (fst st) (snd st) [1; 9; 2; 3; 8; 5] /\
  sifted (fun _ => false) f 0 [1; 2; 3; 8; 5] = (ClosurePanicked, [1; 3], [2]) /\
  sifted (fun x => x =? 2) f 0 [1; 2; 3; 8; 5] = (DestructorPanicked, [1], [2]) /\
  exists v' w', @retain env_debug N vec (@vec_vecx env_debug N num_drop) N f 0 st = (Panic PUser, (v', w')) /\
    fst (@vec_as_slice N num_drop v' w') = Ret [1; 3] /\ drops w' = [2].
Proof. exact x_C15_retain_panics_ex. Qed.
