(** Properties C111-C112: panicking destructors in compaction, iteration and conversions. *)
From Verif Require Import PanicFacts2.

(** Whatever the callback and the destructors do: the call ends at the first panic, the contents
    and the destroyed elements are different elements of the old contents, and dropping the vector
    afterwards destroys the contents up to the first culprit. *)
Theorem C111_retain : forall (EN : Env) (T : Type) (EL : Elem T) (St : Type)
    (f : St -> T -> St * option bool) st v (w : world T) xs,
  0 < t_size -> reached v w xs ->
  let panics x := t_needs_drop && t_drop_panics x in
  exists o v' w' k d w2, retain f st (v, w) = (o, (v', w')) /\ stops_at panics o d /\
    vec_as_slice v' w' = (Ret k, w') /\ drops w' = drops w ++ d /\ k ++ d ⊆+ xs /\
    vec_drop_val v' w' = (match culprits panics k with [] => Ret tt | _ => Panic PDrop end, w2) /\
    drops w2 = drops w' ++ up_to panics 1 k /\
    (culprits panics k = [] -> heap w2 = delete_ptr (vdata v) (heap w)).
Proof. exact p_C111_retain. Qed.
Print Assumptions C111_retain.

Example C111_retain_ex :
  @reached env_debug N num_bomb (fst bomb_st) (snd bomb_st) bombs /\
  fst (@retain env_debug N vec (@vec_vecx env_debug N num_bomb) unit (fun _ x => (tt, Some (x <? 10))) tt bomb_st)
    = Ret tt /\
  fst (@retain env_debug N vec (@vec_vecx env_debug N num_bomb) unit (fun _ x => (tt, Some false)) tt bomb_st)
    = Panic PDrop /\
  drops (snd (snd (@retain env_debug N vec (@vec_vecx env_debug N num_bomb) unit (fun _ x => (tt, Some false)) tt bomb_st)))
    = [5; 13].
Proof. exact x_C111_retain_ex. Qed.

Theorem C111_dedup_by : forall (EN : Env) (T : Type) (EL : Elem T) (St : Type)
    (f : St -> T -> T -> St * option bool) st v (w : world T) xs,
  0 < t_size -> reached v w xs ->
  let panics x := t_needs_drop && t_drop_panics x in
  exists o v' w' k d w2,
    dedup_by (fun st a b => (fst (f st a b), (a, b), snd (f st a b))) st (v, w) = (o, (v', w')) /\
    stops_at panics o d /\
    vec_as_slice v' w' = (Ret k, w') /\ drops w' = drops w ++ d /\ k ++ d ⊆+ xs /\
    vec_drop_val v' w' = (match culprits panics k with [] => Ret tt | _ => Panic PDrop end, w2) /\
    drops w2 = drops w' ++ up_to panics 1 k /\
    (culprits panics k = [] -> heap w2 = delete_ptr (vdata v) (heap w)).
Proof. exact p_C111_dedup_by. Qed.
Print Assumptions C111_dedup_by.

Theorem C111_dedup_by_key : forall (EN : Env) (T : Type) (EL : Elem T) (St K : Type)
    (keq : K -> K -> bool) (key : St -> T -> St * option K) st v (w : world T) xs,
  0 < t_size -> reached v w xs ->
  let panics x := t_needs_drop && t_drop_panics x in
  exists o v' w' k d w2,
    dedup_by_key keq (fun st x => (fst (key st x), x, snd (key st x))) st (v, w) = (o, (v', w')) /\
    stops_at panics o d /\
    vec_as_slice v' w' = (Ret k, w') /\ drops w' = drops w ++ d /\ k ++ d ⊆+ xs /\
    vec_drop_val v' w' = (match culprits panics k with [] => Ret tt | _ => Panic PDrop end, w2) /\
    drops w2 = drops w' ++ up_to panics 1 k /\
    (culprits panics k = [] -> heap w2 = delete_ptr (vdata v) (heap w)).
Proof. exact p_C111_dedup_by_key. Qed.
Print Assumptions C111_dedup_by_key.

Example C111_dedup_ex :
  let st := @demo env_debug N num_bomb w_start (OPush <$> [5; 6; 7; 13; 13; 8]) in
  @reached env_debug N num_bomb (fst st) (snd st) [5; 6; 7; 13; 13; 8] /\
  fst (@dedup_by env_debug N vec (@vec_vecx env_debug N num_bomb) unit (fun st a b => (st, (a, b), Some (a =? b))) tt st)
    = Panic PDrop /\
  fst (@dedup_by_key env_debug N vec (@vec_vecx env_debug N num_bomb) unit N N.eqb (fun st a => (st, a, if a =? 13 then None else Some a)) tt st)
    = Panic PUser.
Proof. exact x_C111_dedup_ex. Qed.

(** The same for [SmallVec], inline or spilled. *)
Theorem C111_small : forall (EN : Env) (T : Type) (EL : Elem T) (St K : Type) (Cap : N)
    (f : St -> T -> St * option bool) (g : St -> T -> T -> St * option bool)
    (keq : K -> K -> bool) (key : St -> T -> St * option K) st s (w : world T) xs m,
  0 < t_size -> sreached Cap s w xs ->
  In m [sv_retain Cap f st;
        sv_dedup_by Cap (fun st a b => (fst (g st a b), (a, b), snd (g st a b))) st;
        sv_dedup_by_key Cap keq (fun st x => (fst (key st x), x, snd (key st x))) st] ->
  let panics x := t_needs_drop && t_drop_panics x in
  exists o s' w' k d w2, m (s, w) = (o, (s', w')) /\ stops_at panics o d /\
    sv_slice s' w' = (Ret k, w') /\ drops w' = drops w ++ d /\ k ++ d ⊆+ xs /\
    sv_drop_val s' w' = (match culprits panics k with [] => Ret tt | _ => Panic PDrop end, w2) /\
    drops w2 = drops w' ++ up_to panics 1 k /\
    (culprits panics k = [] -> heap w2 = srest s w).
Proof. exact p_C111_small. Qed.
Print Assumptions C111_small.

Example C111_small_ex :
  let st := @sdemo env_debug N num_bomb 4 w_start (SPush <$> bombs) in
  @sreached env_debug N num_bomb 4 (fst st) (snd st) bombs /\ is_stack (fst st) = true /\
  fst (@sv_retain env_debug N num_bomb 4 unit (fun _ x => (tt, Some false)) tt st) = Panic PDrop.
Proof. exact x_C111_small_ex. Qed.

(** Dropping a partly used iterator destroys what is left up to the first culprit; the memory is
    given back in any case. *)
Theorem C111_into_iter : forall (EN : Env) (T : Type) (EL : Elem T) v (w : world T) xs cs,
  0 < t_size -> reached v w xs -> deque_ok cs xs ->
  let panics x := t_needs_drop && t_drop_panics x in
  exists i i' w',
    it_run cs (vec_into_iter v, w) = (Ret <$> fst (deque cs xs), (i, w)) /\
    it_drop (i, w) = (match culprits panics (snd (deque cs xs)) with [] => Ret tt | _ => Panic PDrop end, (i', w')) /\
    drops w' = drops w ++ up_to panics 1 (snd (deque cs xs)) /\ heap w' = delete_ptr (vdata v) (heap w).
Proof. exact p_C111_into_iter. Qed.
Print Assumptions C111_into_iter.

Example C111_into_iter_ex :
  @reached env_debug N num_bomb (fst bomb_st) (snd bomb_st) bombs /\ deque_ok [false] bombs /\
  culprits (@t_drop_panics N num_bomb) (snd (deque [false] bombs)) = [13] /\
  up_to (@t_drop_panics N num_bomb) 1 (snd (deque [false] bombs)) = [5; 13].
Proof. exact x_C111_into_iter_ex. Qed.

(** Building a vector, whatever the destructors do: when it cannot be built, what was collected is
    destroyed; a culprit among that ends the process. *)
Theorem C112_from_array : forall (EN : Env) (T : Type) (EL : Elem T) (w : world T) l,
  0 < t_size -> wok w -> llen l * t_size <= isize_max + 1 - t_align ->
  let panics x := t_needs_drop && t_drop_panics x in
  exists r w', vec_from_array l w = (r, w') /\
    ((exists v, r = Ret v /\ vec_as_slice v w' = (Ret l, w') /\ vcap v = llen l /\
        delete_ptr (vdata v) (heap w') = heap w /\ drops w' = drops w) \/
     (r = settle panics (Panic PUnwrap) l /\ refuses /\
        (r <> Abort -> heap w' = heap w /\ drops w' = drops w ++ l))).
Proof. exact p_C112_from_array. Qed.
Print Assumptions C112_from_array.

Theorem C112_from_iter : forall (EN : Env) (T : Type) (EL : Elem T) (w : world T) it hint,
  0 < t_size -> wok w -> N.max (llen it) hint * t_size <= isize_max + 1 - t_align ->
  let panics x := t_needs_drop && t_drop_panics x in
  exists r w', vec_from_iter it hint w = (r, w') /\
    ((exists v ys, r = Ret v /\ it = Some <$> ys /\ vec_as_slice v w' = (Ret ys, w') /\
        delete_ptr (vdata v) (heap w') = heap w /\ drops w' = drops w) \/
     (exists p ds, r = settle panics (Panic p) ds /\ (r <> Abort -> heap w' = heap w /\ drops w' = drops w ++ ds) /\
        ((p = PUser /\ exists it', it = (Some <$> ds) ++ None :: it') \/
         (p = PUnwrap /\ refuses /\ ds = []) \/
         (p = PUnwrap /\ refuses /\ hint < llen it /\
            exists ys y it', it = (Some <$> ys) ++ Some y :: it' /\ ds = y :: ys)))).
Proof. exact p_C112_from_iter. Qed.
Print Assumptions C112_from_iter.

Example C112_from_iter_ex :
  wok w_start /\
  (exists v, fst (@vec_from_iter env_debug N num_bomb [Some 5; Some 13] 0 w_start) = Ret v) /\
  fst (@vec_from_iter env_debug N num_bomb [Some 5; None] 0 w_start) = Panic PUser /\
  fst (@vec_from_iter env_debug N num_bomb [Some 5; Some 13; None] 0 w_start) = Abort /\
  fst (@vec_from_array (env_refusing 0) N num_bomb [5; 13] w_start) = Abort.
Proof. exact x_C112_from_iter_ex. Qed.

Theorem C112_clone : forall (EN : Env) (T : Type) (EL : Elem T) v (w : world T) xs,
  0 < t_size -> reached v w xs ->
  let panics x := t_needs_drop && t_drop_panics x in
  exists r w', vec_clone v w = (r, w') /\
    ((exists v' ys, r = Ret v' /\ Forall2 (fun x y => t_clone x = Some y) xs ys /\
        vec_as_slice v' w' = (Ret ys, w') /\
        delete_ptr (vdata v') (heap w') = heap w /\ drops w' = drops w) \/
     (exists l1 x l2 ys, r = settle panics (Panic PUser) ys /\ xs = l1 ++ x :: l2 /\ t_clone x = None /\
        Forall2 (fun x y => t_clone x = Some y) l1 ys /\
        (r <> Abort -> heap w' = heap w /\ drops w' = drops w ++ ys)) \/
     (r = Panic PUnwrap /\ refuses /\ heap w' = heap w /\ drops w' = drops w)).
Proof. exact p_C112_clone. Qed.
Print Assumptions C112_clone.

Example C112_clone_ex :
  @reached env_debug N num_bomb (fst bomb_st) (snd bomb_st) bombs /\
  fst (@vec_clone env_debug N num_bomb (fst bomb_st) (snd bomb_st)) = Panic PUser /\
  drops (snd (@vec_clone env_debug N num_bomb (fst bomb_st) (snd bomb_st))) = [5].
Proof. exact x_C112_clone_ex. Qed.

(** The same for [SmallVec].  ([clone] is [from] of the slice.) *)
Theorem C112_small_from_iter : forall (EN : Env) (T : Type) (EL : Elem T) (Cap : N) (w : world T) it hint,
  0 < t_size -> wok w -> Cap * t_size <= isize_max + 1 - t_align ->
  (N.max (llen it) hint + 8) * t_size <= isize_max + 1 - t_align ->
  let panics x := t_needs_drop && t_drop_panics x in
  exists r w', sv_from_iter Cap it hint w = (r, w') /\
    ((exists s ys, r = Ret s /\ it = Some <$> ys /\ sv_slice s w' = (Ret ys, w') /\
        srest s w' = heap w /\ drops w' = drops w) \/
     (exists p ds, r = settle panics (Panic p) ds /\ (r <> Abort -> heap w' = heap w /\ drops w' = drops w ++ ds) /\
        ((p = PUser /\ exists it', it = (Some <$> ds) ++ None :: it') \/
         (p = PUnwrap /\ refuses /\ ds = []) \/
         (p = PUnwrap /\ refuses /\ exists ys y it', it = (Some <$> ys) ++ Some y :: it' /\ ds = y :: ys)))).
Proof. exact p_C112_small_from_iter. Qed.
Print Assumptions C112_small_from_iter.

Theorem C112_small_from_slice : forall (EN : Env) (T : Type) (EL : Elem T) (Cap : N) (w : world T) l,
  0 < t_size -> wok w -> Cap * t_size <= isize_max + 1 - t_align ->
  (llen l + 8) * t_size <= isize_max + 1 - t_align ->
  let panics x := t_needs_drop && t_drop_panics x in
  exists r w', sv_from_slice Cap l w = (r, w') /\
    ((exists s ys, r = Ret s /\ Forall2 (fun x y => t_clone x = Some y) l ys /\
        sv_slice s w' = (Ret ys, w') /\ srest s w' = heap w /\ drops w' = drops w) \/
     (exists p ds l1 ys, r = settle panics (Panic p) ds /\
        (r <> Abort -> heap w' = heap w /\ drops w' = drops w ++ ds) /\
        Forall2 (fun x y => t_clone x = Some y) l1 ys /\
        ((p = PUser /\ ds = ys /\ exists x l2, l = l1 ++ x :: l2 /\ t_clone x = None) \/
         (p = PUnwrap /\ refuses /\ ds = [] /\ ys = []) \/
         (p = PUnwrap /\ refuses /\ exists x y l2, l = l1 ++ x :: l2 /\ t_clone x = Some y /\ ds = y :: ys)))).
Proof. exact p_C112_small_from_slice. Qed.
Print Assumptions C112_small_from_slice.

Example C112_small_ex :
  wok w_start /\
  (exists s, fst (@sv_from_iter env_debug N num_bomb 2 [Some 5; Some 13; Some 6] 0 w_start) = Ret s) /\
  fst (@sv_from_iter env_debug N num_bomb 2 [Some 5; None] 0 w_start) = Panic PUser /\
  fst (@sv_from_iter env_debug N num_bomb 2 [Some 13; None] 0 w_start) = Abort /\
  fst (@sv_from_slice env_debug N num_bomb 2 [5; 13] w_start) = Panic PUser /\
  drops (snd (@sv_from_slice env_debug N num_bomb 2 [5; 13] w_start)) = [5].
Proof. exact x_C112_small_ex. Qed.
