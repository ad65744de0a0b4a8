(** Property C119: [dedup_by] and [dedup_by_key] with closures that write to the elements; C15 for
    panicking predicates and destructors. *)
From Verif Require Export VecFacts3 SpecDedup.
From Coq Require Import ZifyBool ZifyNat ZifyN.

Section aux.
  Context {EN : Env} {T : Type} {EL : Elem T} (Hz : 0 < t_size).
  Implicit Types (v : vec) (w : world T) (xs : list T).

  Definition pan (x : T) : bool := t_needs_drop && t_drop_panics x.
  Definition end_res {St} (e : ending St) : res St :=
    match e with Done st => Ret st | ClosurePanicked => Panic PUser | DestructorPanicked => Panic PDrop end.

  Lemma grouped_head {St} (f : St -> T -> T -> St * (T * T) * option bool) xs : forall st b h,
    exists e h' g d, grouped pan f st b h xs = (e, (b, h') :: g, d).
  Proof.
    induction xs as [|x xs IH]; intros st b h; simpl; [by eexists _, _, _, _|].
    destruct (f st x h) as [[st' [x' h']] [[]|]].
    - destruct (pan x'); [by eexists _, _, _, _|].
      destruct (IH st' b h') as (?&?&?&?&->). by eexists _, _, _, _.
    - destruct (grouped pan f st' x' x' xs) as [[? ?] ?]. by eexists _, _, _, _.
    - by eexists _, _, _, _.
  Qed.

  Lemma dedup_run_grouped {St} (f : St -> T -> T -> St * (T * T) * option bool) xs : forall st b h,
    let '(e, g, d) := grouped pan f st b h xs in
    dedup_run f st h xs = (end_res e, fst <$> tail g, d).
  Proof.
    induction xs as [|x xs IH]; intros st b h; simpl; [done|].
    destruct (f st x h) as [[st' [x' h']] [[]|]] eqn:E; simpl; [| |done].
    - specialize (IH st' b h'). fold (pan x'). destruct (pan x'); [done|].
      destruct (grouped pan f st' b h' xs) as [[st'' g] d]. by rewrite IH.
    - specialize (IH st' x' x'). destruct (grouped_head f xs st' x' x') as (e&k&g&d&Hg).
      rewrite Hg in IH |- *. by rewrite IH.
  Qed.

  Lemma dedup_first_grouped {St} (f : St -> T -> T -> St * (T * T) * option bool) xs : forall st b h,
    let '(e, g, d) := grouped pan f st b h xs in
    dedup_first f st h xs = (end_res e, match g with (_, h) :: g => h :: (fst <$> g) | [] => [] end, d).
  Proof.
    induction xs as [|x xs IH]; intros st b h; simpl; [done|].
    destruct (f st x h) as [[st' [x' h']] [[]|]] eqn:E; simpl; [| |done].
    - specialize (IH st' b h'). fold (pan x'). destruct (pan x'); [done|].
      destruct (grouped pan f st' b h' xs) as [[st'' g] d]. by rewrite IH.
    - pose proof (dedup_run_grouped f xs st' x' x') as Hr.
      destruct (grouped_head f xs st' x' x') as (e&k&g&d&Hg). rewrite Hg in Hr |- *. by rewrite Hr.
  Qed.

  Lemma dedup_key_run_written {St K} (keq : K -> K -> bool) (key : St -> T -> St * T * K) xs : forall st (h : T * K),
    no_drop_panic ->
    let '(st', ys) := written key st xs in
    let q := dd (fun a b => keq (snd a) (snd b)) h ys in
    dedup_key_run keq (fun st x => (fst (key st x), Some (snd (key st x)))) st (snd h) xs =
      (Ret st', fst <$> fst q, fst <$> snd q).
  Proof.
    induction xs as [|x xs IH]; intros st h Hn; simpl; [done|].
    destruct (key st x) as [[st' x'] k] eqn:E; simpl.
    pose proof (IH st' h Hn) as H1. pose proof (IH st' (x', k) Hn) as H2.
    destruct (written key st' xs) as [st'' ys]. simpl in *.
    destruct (keq (snd h) k); simpl.
    - rewrite Hn, andb_false_r. by rewrite H1.
    - by rewrite H2.
  Qed.

  Lemma dedup_key_run_until {St K} (keq : K -> K -> bool) (key : St -> T -> St * T * option K) xs :
    forall st (h : T * K), no_drop_panic ->
    let '(r, ys) := written_until key st xs in
    let q := dd (fun a b => keq (snd a) (snd b)) h ys in
    dedup_key_run keq key st (snd h) xs =
      (match r with Some st' => Ret st' | None => Panic PUser end, fst <$> fst q, fst <$> snd q).
  Proof.
    induction xs as [|x xs IH]; intros st h Hn; simpl; [done|].
    destruct (key st x) as [[st' x'] [k|]] eqn:E; simpl; [|done].
    pose proof (IH st' h Hn) as H1. pose proof (IH st' (x', k) Hn) as H2.
    destruct (written_until key st' xs) as [r ys]. simpl in *.
    destruct (keq (snd h) k); simpl.
    - rewrite Hn, andb_false_r. by rewrite H1.
    - by rewrite H2.
  Qed.

  Lemma dedup_key_run_keyed {St K} (keq : K -> K -> bool) (key : St -> T -> St * T * option K) xs : forall st prev,
    let '(e, k, d) := keyed pan keq key st prev xs in dedup_key_run keq key st prev xs = (end_res e, k, d).
  Proof.
    induction xs as [|x xs IH]; intros st prev; simpl; [done|].
    destruct (key st x) as [[st' x'] [k|]]; simpl; [|done].
    destruct (keq prev k).
    - specialize (IH st' prev). fold (pan x'). destruct (pan x'); [done|].
      destruct (keyed pan keq key st' prev xs) as [[? ?] ?]. by rewrite IH.
    - specialize (IH st' k). destruct (keyed pan keq key st' k xs) as [[? ?] ?]. by rewrite IH.
  Qed.

  Lemma retain_run_sifted {St} (f : St -> T -> St * option bool) xs : forall st,
    let '(e, k, d) := sifted pan f st xs in retain_run f st xs = (end_res e, k, d).
  Proof.
    induction xs as [|x xs IH]; intros st; simpl; [done|].
    destruct (f st x) as [st' [[]|]]; simpl; [| |done].
    - specialize (IH st'). destruct (sifted pan f st' xs) as [[? ?] ?]. by rewrite IH.
    - specialize (IH st'). fold (pan x). destruct (pan x); [done|].
      destruct (sifted pan f st' xs) as [[? ?] ?]. by rewrite IH.
  Qed.
End aux.

(** * C119 *)

(** Exactly what [dedup_by] does with any closure and any destructors, panicking ones included, of the
    contents without their second element: the calls, the outcome and what is destroyed are right; of
    what the closure wrote to the kept elements only the writes to the first are in the vector, the
    others still have the value they had when they were kept.  After a panic the vector holds what was
    kept before. *)
Lemma p_C119_dedup_by_partial : forall (EN : Env) (T : Type) (EL : Elem T) (St : Type)
    (f : St -> T -> T -> St * (T * T) * option bool) st v (w : world T) x xs,
  0 < t_size -> reached v w (x :: xs) ->
  let '(e, g, d) := grouped (fun x => t_needs_drop && t_drop_panics x) f st x x (tail xs) in
  exists v' w',
    dedup_by f st (v, w) =
      (match e with Done st' => Ret st' | ClosurePanicked => Panic PUser | DestructorPanicked => Panic PDrop end,
       (v', w')) /\
    vec_as_slice v' w' = (Ret (match g with (_, h) :: g => h :: (fst <$> g) | [] => [] end), w') /\
    drops w' = drops w ++ d /\
    delete_ptr (vdata v') (heap w') = delete_ptr (vdata v) (heap w).
Proof.
  intros EN T EL St f st v w x xs Hz Hre. pose proof (reached_rep Hz _ _ _ Hre) as Hr.
  destruct (vec_dedup_by_ok Hz f st w v _ Hr) as (v'&w'&o&k&d&He&Ha&Hr'&Hk). simpl in Ha.
  pose proof (dedup_first_grouped f (tail xs) st x x) as Hg. unfold pan in Hg.
  destruct (grouped _ f st x x (tail xs)) as [[e g] d']. rewrite Ha in Hg. injection Hg as -> -> ->.
  exists v', w'. destruct (keeps_both Hz _ _ _ _ _ _ Hr' Hk) as (?&?&?). done.
Qed.
(** A closure that adds the even elements to the kept one and panics at 8: the first element gets its
    share, the second kept one does not. *)
Definition soak (_ : unit) (a k : N) : unit * (N * N) * option bool :=
  if a =? 8 then (tt, (a, k), None)
  else if N.even a then (tt, (a, k + a), Some true) else (tt, (a, k), Some false).
Lemma x_C119_dedup_by_ex :
  let st := @demo env_debug N num_drop w_start [OPush 1; OPush 9; OPush 2; OPush 3; OPush 4; OPush 8; OPush 5] in
  @reached env_debug N num_drop (fst st) (snd st) [1; 9; 2; 3; 4; 8; 5] /\
  grouped (fun _ => false) soak tt 1 1 [2; 3; 4] = (Done tt, [(1, 3); (3, 7)], [2; 4]) /\
  grouped (fun _ => false) soak tt 1 1 [2; 3; 4; 8; 5] = (ClosurePanicked, [(1, 3); (3, 7)], [2; 4]) /\
  grouped (fun x => x =? 4) soak tt 1 1 [2; 3; 4; 8; 5] = (DestructorPanicked, [(1, 3); (3, 7)], [2; 4]) /\
  exists v' w', @dedup_by env_debug N vec (@vec_vecx env_debug N num_drop) unit soak tt st = (Panic PUser, (v', w')) /\
    fst (@vec_as_slice N num_drop v' w') = Ret [3; 3] /\ drops w' = [2; 4].
Proof.
  split; [by apply demo_reached; [apply w_start_ok|..]; vm_compute|]. do 3 (split; [done|]).
  eexists _, _. split; [vm_compute; reflexivity|]. split; vm_compute; reflexivity.
Qed.

(** With a closure that leaves the kept element alone every kept element is as it should be. *)
Lemma p_C119_dedup_by_reads_partial : forall (EN : Env) (T : Type) (EL : Elem T) (St : Type)
    (f : St -> T -> T -> St * (T * T) * option bool) st v (w : world T) x xs,
  0 < t_size -> reached v w (x :: xs) ->
  (forall st a b, snd (snd (fst (f st a b))) = b) ->
  let '(e, g, d) := grouped (fun x => t_needs_drop && t_drop_panics x) f st x x (tail xs) in
  exists v' w',
    dedup_by f st (v, w) =
      (match e with Done st' => Ret st' | ClosurePanicked => Panic PUser | DestructorPanicked => Panic PDrop end,
       (v', w')) /\
    vec_as_slice v' w' = (Ret (snd <$> g), w') /\ drops w' = drops w ++ d.
Proof.
  intros EN T EL St f st v w x xs Hz Hre Hf.
  pose proof (p_C119_dedup_by_partial EN T EL St f st v w x xs Hz Hre) as H.
  change (fun x => t_needs_drop && t_drop_panics x) with (pan (T := T)) in *.
  assert (forall ys st b, let '(_, g, _) := grouped pan f st b b ys in (snd <$> g) = (fst <$> g)) as Hsame.
  { induction ys as [|y ys IH]; intros s b; simpl; [done|].
    specialize (Hf s y b) as Hk. destruct (f s y b) as [[s' [y' b']] [[]|]]; simpl in Hk; subst b'; [| |done].
    - destruct (pan y'); [done|]. specialize (IH s' b). by destruct (grouped pan f s' b b ys) as [[? ?] ?].
    - specialize (IH s' y'). destruct (grouped pan f s' y' y' ys) as [[? g] ?].
      rewrite !fmap_cons. simpl. f_equal. exact IH. }
  specialize (Hsame (tail xs) st x). destruct (grouped_head f (tail xs) st x x) as (e&h&g&d&Hg).
  rewrite Hg in *. simpl in Hsame. injection Hsame as -> Hs.
  destruct H as (v'&w'&He&Hv&Hd&_). exists v', w'. simpl. rewrite Hs. done.
Qed.
Lemma x_C119_dedup_by_reads_ex :
  (forall (st : unit) (a b : N), snd (snd (fst (st, (a + 1, b), Some (a =? b)))) = b) /\
  grouped (fun _ => false) (fun (st : unit) a b => (st, (a + 1, b), Some (a =? b))) tt 1 1 [1; 2; 3; 4] =
    (Done tt, [(1, 1); (3, 3); (5, 5)], [2; 4]).
Proof. split; [done|vm_compute; reflexivity]. Qed.

(** [dedup_by_key] with any key function that returns, also a writing one: the heads of the runs of
    equal keys of the written contents without their second element. *)
Lemma p_C119_dedup_by_key_partial : forall (EN : Env) (T : Type) (EL : Elem T) (St K : Type)
    (keq : K -> K -> bool) (key : St -> T -> St * T * K) st v (w : world T) xs,
  0 < t_size -> no_drop_panic -> reached v w xs ->
  let '(st', ys) := written key st (match xs with x :: _ :: zs => x :: zs | _ => xs end) in
  exists v' w' ks ds,
    dedup_by_key keq (fun st x => (fst (key st x), Some (snd (key st x)))) st (v, w) = (Ret st', (v', w')) /\
    runs (fun a b => keq (snd a) (snd b)) ys ks ds /\
    vec_as_slice v' w' = (Ret (fst <$> ks), w') /\ drops w' = drops w ++ (fst <$> ds) /\
    delete_ptr (vdata v') (heap w') = delete_ptr (vdata v) (heap w).
Proof.
  intros EN T EL St K keq key st v w xs Hz Hnd Hre. pose proof (reached_rep Hz _ _ _ Hre) as Hr.
  destruct (vec_dedup_by_key_ok Hz keq (fun st x => (fst (key st x), Some (snd (key st x)))) st w v _ Hr)
    as (v'&w'&o&k&d&He&Ha&Hr'&Hk).
  destruct (keeps_both Hz _ _ _ _ _ _ Hr' Hk) as (Hv&Hd&Hh).
  destruct xs as [|x R]; simpl in Ha.
  { injection Ha as <- <- <-. simpl. exists v', w', [], []. split_and!; try done. constructor. }
  replace (match R with [] => x :: R | _ :: zs => x :: zs end) with (x :: tail R) by (by destruct R).
  simpl. destruct (key st x) as [[st1 x'] k1] eqn:E. simpl in Ha.
  pose proof (dedup_key_run_written keq key (tail R) st1 (x', k1) Hnd) as Hw.
  destruct (written key st1 (tail R)) as [st' ys]. cbv zeta in Hw. cbn [snd] in Hw. rewrite Hw in Ha.
  injection Ha as <- <- <-.
  eexists v', w', _, _. split; [exact He|]. split; [apply dd_runs_cons|]. simpl. done.
Qed.
Lemma x_C119_dedup_by_key_ex :
  let st := @demo env_debug N num_drop w_start [OPush 10; OPush 9; OPush 11; OPush 20] in
  let key := fun (n : N) (x : N) => (n + 1, x + 100, x / 10) in
  @reached env_debug N num_drop (fst st) (snd st) [10; 9; 11; 20] /\
  written key 0 [10; 11; 20] = (3, [(110, 1); (111, 1); (120, 2)]) /\
  exists v' w', @dedup_by_key env_debug N vec (@vec_vecx env_debug N num_drop) N N N.eqb
      (fun st x => (fst (key st x), Some (snd (key st x)))) 0 st = (Ret 3, (v', w')) /\
    fst (@vec_as_slice N num_drop v' w') = Ret [110; 120] /\ drops w' = [111].
Proof.
  split; [by apply demo_reached; [apply w_start_ok|..]; vm_compute|]. split; [done|].
  eexists _, _. split; [vm_compute; reflexivity|]. split; vm_compute; reflexivity.
Qed.

(** The same when the key function may panic: a panic on the first element leaves the vector as it
    is, a later one leaves what was kept of the elements before. *)
Lemma p_C119_dedup_by_key_panics_partial : forall (EN : Env) (T : Type) (EL : Elem T) (St K : Type)
    (keq : K -> K -> bool) (key : St -> T -> St * T * option K) st v (w : world T) x xs,
  0 < t_size -> no_drop_panic -> reached v w (x :: xs) ->
  match key st x with
  | (_, x', None) =>
      exists v' w', dedup_by_key keq key st (v, w) = (Panic PUser, (v', w')) /\
        vec_as_slice v' w' = (Ret (x' :: xs), w') /\ drops w' = drops w
  | (st1, x', Some k1) =>
      let '(r, ys) := written_until key st1 (tail xs) in
      exists v' w' ks ds,
        dedup_by_key keq key st (v, w) = (match r with Some st' => Ret st' | None => Panic PUser end, (v', w')) /\
        runs (fun a b => keq (snd a) (snd b)) ((x', k1) :: ys) ks ds /\
        vec_as_slice v' w' = (Ret (fst <$> ks), w') /\ drops w' = drops w ++ (fst <$> ds) /\
        delete_ptr (vdata v') (heap w') = delete_ptr (vdata v) (heap w)
  end.
Proof.
  intros EN T EL St K keq key st v w x xs Hz Hnd Hre. pose proof (reached_rep Hz _ _ _ Hre) as Hr.
  destruct (vec_dedup_by_key_ok Hz keq key st w v _ Hr) as (v'&w'&o&k&d&He&Ha&Hr'&Hk).
  destruct (keeps_both Hz _ _ _ _ _ _ Hr' Hk) as (Hv&Hd&Hh).
  simpl in Ha. destruct (key st x) as [[st1 x'] [k1|]] eqn:E.
  - pose proof (dedup_key_run_until keq key (tail xs) st1 (x', k1) Hnd) as Hw.
    destruct (written_until key st1 (tail xs)) as [r ys]. cbv zeta in Hw. cbn [snd] in Hw. rewrite Hw in Ha.
    injection Ha as <- <- <-.
    eexists v', w', _, _. split; [exact He|]. split; [apply dd_runs_cons|]. simpl. done.
  - injection Ha as <- <- <-. exists v', w'. rewrite app_nil_r in Hd. done.
Qed.
Lemma x_C119_dedup_by_key_panics_ex :
  let st := @demo env_debug N num_drop w_start [OPush 10; OPush 9; OPush 11; OPush 20; OPush 50; OPush 60] in
  let key := fun (n : N) (x : N) => (n + 1, x + 100, if x =? 50 then None else Some (x / 10)) in
  @reached env_debug N num_drop (fst st) (snd st) [10; 9; 11; 20; 50; 60] /\
  written_until key 1 [11; 20; 50; 60] = (None, [(111, 1); (120, 2)]) /\
  exists v' w', @dedup_by_key env_debug N vec (@vec_vecx env_debug N num_drop) N N N.eqb key 0 st =
      (Panic PUser, (v', w')) /\
    fst (@vec_as_slice N num_drop v' w') = Ret [110; 120] /\ drops w' = [111].
Proof.
  split; [by apply demo_reached; [apply w_start_ok|..]; vm_compute|]. split; [done|].
  eexists _, _. split; [vm_compute; reflexivity|]. split; vm_compute; reflexivity.
Qed.

(** And when destructors may panic too. *)
Lemma p_C119_dedup_by_key_bombs_partial : forall (EN : Env) (T : Type) (EL : Elem T) (St K : Type)
    (keq : K -> K -> bool) (key : St -> T -> St * T * option K) st v (w : world T) x xs st1 x' k1,
  0 < t_size -> reached v w (x :: xs) -> key st x = (st1, x', Some k1) ->
  let '(e, ks, d) := keyed (fun x => t_needs_drop && t_drop_panics x) keq key st1 k1 (tail xs) in
  exists v' w',
    dedup_by_key keq key st (v, w) =
      (match e with Done st' => Ret st' | ClosurePanicked => Panic PUser | DestructorPanicked => Panic PDrop end,
       (v', w')) /\
    vec_as_slice v' w' = (Ret (x' :: ks), w') /\ drops w' = drops w ++ d /\
    delete_ptr (vdata v') (heap w') = delete_ptr (vdata v) (heap w).
Proof.
  intros EN T EL St K keq key st v w x xs st1 x' k1 Hz Hre E. pose proof (reached_rep Hz _ _ _ Hre) as Hr.
  destruct (vec_dedup_by_key_ok Hz keq key st w v _ Hr) as (v'&w'&o&k&d&He&Ha&Hr'&Hk).
  destruct (keeps_both Hz _ _ _ _ _ _ Hr' Hk) as (Hv&Hd&Hh).
  simpl in Ha. rewrite E in Ha.
  pose proof (dedup_key_run_keyed keq key (tail xs) st1 k1) as Hs. unfold pan in Hs.
  destruct (keyed _ keq key st1 k1 (tail xs)) as [[e ks] d']. rewrite Hs in Ha. injection Ha as <- <- <-.
  by exists v', w'.
Qed.
Lemma x_C119_dedup_by_key_bombs_ex :
  let st := @demo env_debug N num_bomb w_start [OPush 10; OPush 9; OPush 11; OPush 20; OPush 13; OPush 12; OPush 14] in
  let key := fun (n : N) (x : N) => (n + 1, x, Some (x / 10)) in
  @reached env_debug N num_bomb (fst st) (snd st) [10; 9; 11; 20; 13; 12; 14] /\
  keyed (@t_drop_panics N num_bomb) N.eqb key 1 1 [11; 20; 13; 12; 14] = (Done 6, [20; 13], [11; 12; 14]) /\
  keyed (@t_drop_panics N num_bomb) N.eqb key 1 1 [11; 13; 20] = (DestructorPanicked, [], [11; 13]).
Proof. split; [by apply demo_reached; [apply w_start_ok|..]; vm_compute|]. split; vm_compute; reflexivity. Qed.

(** A value the closure puts in place of a kept element other than the first is lost, and the element
    it took out (here its state records it) stays in the vector: dropping the vector destroys it
    although the closure owns it. *)
Lemma p_C119_replace_refuted : forall (EN : Env) (T : Type) (EL : Elem T) v (w : world T) a b c d new,
  0 < t_size -> no_drop_panic -> reached v w [a; b; c; d] ->
  let f := fun (st : nat * list T) (x k : T) =>
    match st with
    | (O, took) => ((1%nat, took), (x, k), Some false)
    | (S _, took) => ((2%nat, k :: took), (x, new), Some true)
    end in
  exists v' w' w2,
    dedup_by f (O, []) (v, w) = (Ret (2%nat, [c]), (v', w')) /\
    vec_as_slice v' w' = (Ret [a; c], w') /\
    vec_drop_val v' w' = (Ret tt, w2) /\ drops w2 = drops w ++ [d; a; c].
Proof.
  intros EN T EL v w a b c d new Hz Hnd Hre f. pose proof (reached_rep Hz _ _ _ Hre) as Hr.
  destruct (vec_dedup_by_ok Hz f (O, []) w v _ Hr) as (v'&w'&o&k&ds&He&Ha&Hr'&Hk).
  simpl in Ha. rewrite Hnd, andb_false_r in Ha. injection Ha as <- <- <-.
  destruct (vec_drop_val_gone Hz w' v' _ Hr' Hnd) as (w2&Hdr&_&Hd2&_).
  destruct (keeps_both Hz _ _ _ _ _ _ Hr' Hk) as (Hv&Hd&_).
  exists v', w', w2. split_and!; try done. by rewrite Hd2, Hd, <-app_assoc.
Qed.
Lemma x_C119_replace_ex :
  let st := @demo env_debug N num_drop w_start [OPush 1; OPush 2; OPush 3; OPush 4] in
  @reached env_debug N num_drop (fst st) (snd st) [1; 2; 3; 4].
Proof. by apply demo_reached; [apply w_start_ok|..]; vm_compute. Qed.

(** * C15 *)

(** [retain] with any predicate and any destructors, panicking ones included.  A panic of the
    predicate on the first element leaves the vector as it is; otherwise the outcome, what is kept and
    what is destroyed are right, up to the second element, which is lost when the first is kept. *)
Lemma p_C15_retain_panics_partial : forall (EN : Env) (T : Type) (EL : Elem T) (St : Type)
    (f : St -> T -> St * option bool) st v (w : world T) x xs,
  0 < t_size -> reached v w (x :: xs) ->
  let ys := match snd (f st x) with Some true => x :: tail xs | _ => x :: xs end in
  let '(e, k, d) := sifted (fun x => t_needs_drop && t_drop_panics x) f st ys in
  exists v' w',
    retain f st (v, w) =
      (match e with Done st' => Ret st' | ClosurePanicked => Panic PUser | DestructorPanicked => Panic PDrop end,
       (v', w')) /\
    vec_as_slice v' w' = (Ret (match snd (f st x) with None => x :: xs | Some _ => k end), w') /\
    drops w' = drops w ++ d /\
    delete_ptr (vdata v') (heap w') = delete_ptr (vdata v) (heap w).
Proof.
  intros EN T EL St f st v w x xs Hz Hre ys. pose proof (reached_rep Hz _ _ _ Hre) as Hr.
  destruct (vec_retain_ok Hz f st w v _ Hr) as (v'&w'&o&k&d&He&Ha&Hr'&Hk).
  destruct (keeps_both Hz _ _ _ _ _ _ Hr' Hk) as (Hv&Hd&Hh).
  subst ys. simpl in Ha. destruct (f st x) as [st' [[]|]] eqn:E; simpl; rewrite E.
  - pose proof (retain_run_sifted f (tail xs) st') as Hs. unfold pan in Hs.
    destruct (sifted _ f st' (tail xs)) as [[e k'] d']. rewrite Hs in Ha. injection Ha as <- <- <-.
    by exists v', w'.
  - destruct (t_needs_drop && t_drop_panics x); [injection Ha as <- <- <-; by exists v', w'|].
    pose proof (retain_run_sifted f xs st') as Hs. unfold pan in Hs.
    destruct (sifted _ f st' xs) as [[e k'] d']. rewrite Hs in Ha. injection Ha as <- <- <-.
    by exists v', w'.
  - injection Ha as <- <- <-. by exists v', w'.
Qed.
Lemma x_C15_retain_panics_ex :
  let st := @demo env_debug N num_drop w_start [OPush 1; OPush 9; OPush 2; OPush 3; OPush 8; OPush 5] in
  let f := fun (n : N) (x : N) => (n + 1, if x =? 8 then None else Some (N.odd x)) in
  @reached env_debug N num_drop (fst st) (snd st) [1; 9; 2; 3; 8; 5] /\
  sifted (fun _ => false) f 0 [1; 2; 3; 8; 5] = (ClosurePanicked, [1; 3], [2]) /\
  sifted (fun x => x =? 2) f 0 [1; 2; 3; 8; 5] = (DestructorPanicked, [1], [2]) /\
  exists v' w', @retain env_debug N vec (@vec_vecx env_debug N num_drop) N f 0 st = (Panic PUser, (v', w')) /\
    fst (@vec_as_slice N num_drop v' w') = Ret [1; 3] /\ drops w' = [2].
Proof.
  split; [by apply demo_reached; [apply w_start_ok|..]; vm_compute|]. do 2 (split; [done|]).
  eexists _, _. split; [vm_compute; reflexivity|]. split; vm_compute; reflexivity.
Qed.
