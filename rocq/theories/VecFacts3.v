(** Proofs of the statements on compaction, draining, splitting, iterators, conversions, markers,
    allocator logs, panics, zero-sized elements and comparisons. *)
From Verif Require Export VecFacts2 SpecDrop.
From Coq Require Import ZifyBool ZifyNat ZifyN.

Section aux.
  Context {EN : Env} {T : Type} {EL : Elem T} (Hz : 0 < t_size).
  Implicit Types (v : vec) (w : world T) (xs : list T).

  Lemma keeps_both v w v' w' k d :
    rep w' v' k -> keeps v w v' w' d ->
    vec_as_slice v' w' = (Ret k, w') /\ drops w' = drops w ++ d /\
    delete_ptr (vdata v') (heap w') = delete_ptr (vdata v) (heap w).
  Proof. intros Hr (H1&H2&_). split_and!; try done. by apply (as_slice_ok Hz). Qed.

  Lemma rep_no_panic v w v' w' xs d : rep w v xs -> keeps v w v' w' d -> rep w' v' xs ->
    delete_ptr (vdata v') (heap w') = delete_ptr (vdata v) (heap w).
  Proof. by intros ? [H _] _. Qed.

  Lemma deque_front n : forall xs : list T,
    deque (replicate n true) xs =
      ((Some <$> take n xs) ++ replicate (n - length xs) None, drop n xs).
  Proof.
    induction n as [|n IH]; intros xs; simpl; [done|]. rewrite IH. destruct xs as [|x xs]; simpl.
    - by rewrite take_nil, drop_nil, Nat.sub_0_r.
    - done.
  Qed.
  Lemma deque_ok_front n : forall xs : list T, deque_ok (replicate n true) xs.
  Proof. induction n as [|n IH]; intros xs; simpl; [done|]. by split. Qed.

  Lemma it_front n v w xs : rep w v xs ->
    exists i ys, it_run (replicate n true) (vec_into_iter v, w) =
        (Ret <$> (Some <$> take n xs) ++ replicate (n - length xs) None, (i, w)) /\
      it_rep w i ys (drop n xs) /\ vdata (it_vec i) = vdata v /\ v_len (it_vec i) = llen xs /\
      (xs <> [] -> (length xs <= n)%nat -> exists x zs, last xs = Some x /\ ys = zs ++ [x]).
  Proof.
    intros Hr.
    assert (forall n i ys us, it_rep w i ys us ->
      exists i' ys', it_run (replicate n true) (i, w) =
        (Ret <$> (Some <$> take n us) ++ replicate (n - length us) None, (i', w)) /\
      it_rep w i' ys' (drop n us) /\ it_vec i' = it_vec i /\ ys' = ys ++ take n us) as Hgo.
    { clear n xs Hr. induction n as [|n IH]; intros i ys us Hi; simpl.
      - exists i, ys. rewrite app_nil_r. done.
      - destruct (it_next_ok Hz _ _ _ _ Hi) as (i1&He&Hv&H1). rewrite He.
        destruct us as [|x us]; simpl.
        + subst i1. destruct (IH i ys [] Hi) as (i2&ys2&He2&Hr2&Hv2&->). rewrite He2.
          exists i2, (ys ++ take n []). rewrite take_nil, drop_nil in *. simpl in *.
          rewrite Nat.sub_0_r. rewrite app_nil_r in *. done.
        + destruct (IH i1 _ us H1) as (i2&ys2&He2&Hr2&Hv2&->). rewrite He2.
          exists i2, (ys ++ x :: take n us). split_and!; [done| |congruence|done].
          by rewrite <-app_assoc in Hr2. }
    destruct (Hgo n (vec_into_iter v) [] xs (into_iter_rep _ _ _ Hr)) as (i&ys&He&Hi&Hv&Hy).
    exists i, ys. split_and!; try done; [by rewrite Hv|by rewrite Hv; destruct Hr|].
    intros Hne Hl. subst ys. simpl. rewrite take_ge by done.
    destruct xs as [|x zs _] using rev_ind; [done|]. exists x, zs. by rewrite last_snoc.
  Qed.

  Lemma rep_blk v w xs : rep w v xs -> xs <> [] -> exists b, vdata v = Blk b.
  Proof.
    intros Hr Hne. pose proof (rep_cap Hz _ _ _ Hr) as [Hc _]. destruct Hr as [_ [rest Ho]].
    pose proof (owns_cap Hz _ _ _ Ho) as Hcap. destruct Ho as (_&_&_&Hm).
    destruct (vdata v) as [|b]; [|eauto]. by destruct xs.
  Qed.
End aux.

(** * C15 *)

(** Exactly what [retain] does with a predicate that does not panic: when it accepts the first of
    several elements, the second one is neither asked about, nor kept, nor destroyed. *)
Lemma p_C15_retain_partial : forall (EN : Env) (T : Type) (EL : Elem T) (St : Type)
    (f : St -> T -> St * bool) st v (w : world T) xs,
  0 < t_size -> no_drop_panic -> reached v w xs ->
  exists st' v' w' k d,
    retain (fun st x => let '(st', b) := f st x in (st', Some b)) st (v, w) = (Ret st', (v', w')) /\
    vec_as_slice v' w' = (Ret k, w') /\ drops w' = drops w ++ d /\
    delete_ptr (vdata v') (heap w') = delete_ptr (vdata v) (heap w) /\
    retained f st (match xs with
                   | x :: _ :: zs => if snd (f st x) then x :: zs else xs
                   | _ => xs end) = (st', k, d).
Proof.
  intros EN T EL St f st v w xs Hz Hnd Hre. pose proof (reached_rep Hz _ _ _ Hre) as Hr.
  destruct (retain_calm Hz f st w v xs Hr Hnd) as (v'&w'&st'&k&d&He&Hs&Hr'&Hk).
  exists st', v', w', k, d. destruct (keeps_both Hz _ _ _ _ _ _ Hr' Hk) as (?&?&?).
  split_and!; try done. rewrite <-Hs. f_equal. destruct xs as [|x [|y zs]]; try done.
  simpl. by destruct (f st x) as [? []].
Qed.
(** It is right when the first element is rejected. *)
Lemma x_C15_retain_ex :
  @reached env_debug N num_drop (v123 env_debug num_drop) (w123 env_debug num_drop) [1; 2; 3] /\
  retained (fun (n : N) x => (n + 1, negb (x =? 1))) 0 [1; 2; 3] = (3, [2; 3], [1]) /\
  exists v' w', @retain env_debug N vec (@vec_vecx env_debug N num_drop) N (fun n x => (n + 1, Some (negb (x =? 1)))) 0
    (v123 env_debug num_drop, w123 env_debug num_drop) = (Ret 3, (v', w')) /\
    fst (@vec_as_slice N num_drop v' w') = Ret [2; 3].
Proof.
  split; [apply reached123_drop|]. split; [done|]. eexists _, _. split; vm_compute; reflexivity.
Qed.

(** The second element gets lost when everything is accepted. *)
Lemma p_C15_retain_refuted : forall (EN : Env) (T : Type) (EL : Elem T) v (w : world T) x y zs,
  0 < t_size -> no_drop_panic -> reached v w (x :: y :: zs) ->
  exists v' w', retain (fun (_ : unit) _ => (tt, Some true)) tt (v, w) = (Ret tt, (v', w')) /\
    vec_as_slice v' w' = (Ret (x :: zs), w') /\ drops w' = drops w.
Proof.
  intros EN T EL v w x y zs Hz Hnd Hre. pose proof (reached_rep Hz _ _ _ Hre) as Hr.
  destruct (retain_calm Hz (fun _ _ => (tt, true)) tt w v _ Hr Hnd) as (v'&w'&st'&k&d&He&Hs&Hr'&Hk).
  assert (forall l : list T, retained (fun (_ : unit) _ => (tt, true)) tt l = (tt, l, [])) as Hall.
  { induction l as [|z l IH]; simpl; [done|]. by rewrite IH. }
  simpl in Hs. rewrite Hall in Hs. injection Hs as <- <- <-.
  destruct (keeps_both Hz _ _ _ _ _ _ Hr' Hk) as (?&Hd&_). rewrite app_nil_r in Hd.
  exists v', w'. done.
Qed.
Lemma x_C15_retain_refuted_ex :
  @reached env_debug N num_drop (v123 env_debug num_drop) (w123 env_debug num_drop) [1; 2; 3].
Proof. apply reached123_drop. Qed.

(** * C16 *)

(** Exactly what [dedup] and [dedup_by_key] do: the runs of the sequence without its second
    element; that one is neither kept nor destroyed. *)
Lemma p_C16_dedup_partial : forall (EN : Env) (T : Type) (EL : Elem T) (same : T -> T -> bool)
    v (w : world T) xs,
  0 < t_size -> no_drop_panic -> reached v w xs ->
  exists v' w' k d, dedup same (v, w) = (Ret tt, (v', w')) /\
    vec_as_slice v' w' = (Ret k, w') /\ drops w' = drops w ++ d /\
    delete_ptr (vdata v') (heap w') = delete_ptr (vdata v) (heap w) /\
    runs (fun a b => same b a) (match xs with x :: _ :: zs => x :: zs | _ => xs end) k d.
Proof.
  intros EN T EL same v w xs Hz Hnd Hre. pose proof (reached_rep Hz _ _ _ Hre) as Hr.
  destruct (dedup_calm Hz same w v xs Hr Hnd) as (v'&w'&k&d&He&Hs&Hr'&Hk).
  exists v', w', k, d. destruct (keeps_both Hz _ _ _ _ _ _ Hr' Hk) as (?&?&?). done.
Qed.
Lemma p_C16_dedup_by_key_partial : forall (EN : Env) (T : Type) (EL : Elem T) (K : Type)
    (keq : K -> K -> bool) (key : T -> K) v (w : world T) xs,
  0 < t_size -> no_drop_panic -> reached v w xs ->
  exists v' w' k d,
    dedup_by_key keq (fun (_ : unit) x => (tt, x, Some (key x))) tt (v, w) = (Ret tt, (v', w')) /\
    vec_as_slice v' w' = (Ret k, w') /\ drops w' = drops w ++ d /\
    delete_ptr (vdata v') (heap w') = delete_ptr (vdata v) (heap w) /\
    runs (fun a b => keq (key a) (key b)) (match xs with x :: _ :: zs => x :: zs | _ => xs end) k d.
Proof.
  intros EN T EL K keq key v w xs Hz Hnd Hre. pose proof (reached_rep Hz _ _ _ Hre) as Hr.
  destruct (dedup_by_key_calm Hz keq key w v xs Hr Hnd) as (v'&w'&k&d&He&Hs&Hr'&Hk).
  exists v', w', k, d. destruct (keeps_both Hz _ _ _ _ _ _ Hr' Hk) as (?&?&?). done.
Qed.
Lemma x_C16_dedup_ex :
  let st := @demo env_debug N num_drop w_start [OPush 1; OPush 1; OPush 1; OPush 2] in
  @reached env_debug N num_drop (fst st) (snd st) [1; 1; 1; 2] /\
  runs N.eqb [1; 1; 2] [1; 2] [1] /\
  exists v' w', @dedup env_debug N vec (@vec_vecx env_debug N num_drop) N.eqb st = (Ret tt, (v', w')) /\
    fst (@vec_as_slice N num_drop v' w') = Ret [1; 2] /\ drops w' = [1].
Proof.
  split; [by apply demo_reached; [apply w_start_ok|..]; vm_compute|]. split.
  - apply (runs_run N.eqb 1 [1] [2] [2] []); [by repeat constructor|done|].
    apply (runs_run N.eqb 2 [] [] [] []); [constructor|done|constructor].
  - eexists _, _. split; [vm_compute; reflexivity|]. split; vm_compute; reflexivity.
Qed.

(** A vector without repetitions loses its second element. *)
Lemma p_C16_dedup_refuted : forall (EN : Env) (T : Type) (EL : Elem T) v (w : world T) x y,
  0 < t_size -> no_drop_panic -> reached v w [x; y] ->
  exists v' w', dedup (fun _ _ => false) (v, w) = (Ret tt, (v', w')) /\
    vec_as_slice v' w' = (Ret [x], w') /\ drops w' = drops w.
Proof.
  intros EN T EL v w x y Hz Hnd Hre. pose proof (reached_rep Hz _ _ _ Hre) as Hr.
  destruct (dedup_calm Hz (fun _ _ => false) w v _ Hr Hnd) as (v'&w'&k&d&He&Hs&Hr'&Hk).
  simpl in Hs. inversion Hs as [|x0 r xs0 ks ds Hf Hh Hrun Hx Hk0 Hd0]; subst.
  destruct r; [|by inversion Hf]. simpl in *. subst xs0. inversion Hrun; subst.
  destruct (keeps_both Hz _ _ _ _ _ _ Hr' Hk) as (?&Hd&_). rewrite app_nil_r in Hd.
  exists v', w'. done.
Qed.
Lemma x_C16_dedup_refuted_ex :
  let st := @demo env_debug N num_drop w_start [OPush 1; OPush 2] in
  @reached env_debug N num_drop (fst st) (snd st) [1; 2].
Proof. by apply demo_reached; [apply w_start_ok|..]; vm_compute. Qed.

(** * C17 *)

(** Every valid non-empty range panics; the elements from its start on are lost. *)
Lemma p_C17_drain_refuted : forall (EN : Env) (T : Type) (EL : Elem T) v (w : world T) xs a b,
  0 < t_size -> reached v w xs -> a < b -> b <= llen xs ->
  exists v' w', drain_new (Included a) (Excluded b) (v, w) = (Panic PIndex, (v', w')) /\
    vec_as_slice v' w' = (Ret (take (N.to_nat a) xs), w') /\ drops w' = drops w.
Proof.
  intros EN T EL v w xs a b Hz Hre Hab Hb. pose proof (reached_rep Hz _ _ _ Hre) as Hr.
  destruct (drain_nonempty Hz w v xs a b Hr Hab Hb) as (v'&w'&He&Hr'&Hk&_).
  destruct (keeps_both Hz _ _ _ _ _ _ Hr' Hk) as (?&Hd&_). rewrite app_nil_r in Hd.
  exists v', w'. done.
Qed.
(** An empty range yields nothing, but dropping the drain loses the elements after it (or is
    undefined, when library preconditions count). *)
Lemma p_C17_drain_empty_refuted : forall (EN : Env) (T : Type) (EL : Elem T) v (w : world T) xs a,
  0 < t_size -> reached v w xs -> a <= llen xs ->
  exists v1 d, drain_new (Included a) (Excluded a) (v, w) = (Ret d, (v1, w)) /\
    drain_next d (v1, w) = (Ret (None, d), (v1, w)) /\
    drain_next_back d (v1, w) = (Ret (None, d), (v1, w)) /\
    (e_strict = true -> drain_drop d (v1, w) = (UB Precond, (v1, w))) /\
    (e_strict = false -> exists v2, drain_drop d (v1, w) = (Ret tt, (v2, w)) /\
       vec_as_slice v2 w = (Ret (take (N.to_nat a) xs), w)).
Proof.
  intros EN T EL v w xs a Hz Hre Ha. pose proof (reached_rep Hz _ _ _ Hre) as Hr.
  destruct (drain_empty Hz w v xs a Hr Ha) as (v1&d&He&Hn&Hn'&Hs&Hl). exists v1, d.
  split_and!; try done. intros Hf. destruct (Hl Hf) as (v2&He2&Hr2). exists v2.
  split; [done|]. by apply (as_slice_ok Hz).
Qed.
(** The iterator by itself, on a drain over the elements [a .. a + n) of a vector (which [drain_new]
    never makes for [n > 0]): [next] is right. *)
Lemma p_C17_next_partial : forall (EN : Env) (T : Type) (EL : Elem T) v (w : world T) xs a n s e o x,
  0 < t_size -> reached v w xs -> 1 <= n -> a + n <= llen xs ->
  xs !! N.to_nat a = Some x ->
  drain_next (Drain a n s e o) (v, w) = (Ret (Some x, Drain (a + 1) (n - 1) s e o), (v, w)).
Proof.
  intros EN T EL v w xs a n s e o x Hz Hre Hn Ha Hx. pose proof (reached_rep Hz _ _ _ Hre) as [Hl [rest Ho]].
  unfold drain_next. cbn [dr_n dr_base dr_start dr_end dr_orig].
  destruct (N.eqb_spec n 0) as [E|_]; [clear -E Hn; lia|].
  by erewrite bind_Ret by (by eapply (vread (L:=vec_laws Hz))).
Qed.
(** [next_back] gives the last element, but what remains starts at that element: it is given out
    again, by [next] or [next_back], and the first elements never are. *)
Lemma p_C17_next_back_refuted : forall (EN : Env) (T : Type) (EL : Elem T) v (w : world T) xs a n s e o x,
  0 < t_size -> reached v w xs -> 2 <= n -> a + n <= llen xs ->
  xs !! N.to_nat (a + n - 1) = Some x ->
  exists d, drain_next_back (Drain a n s e o) (v, w) = (Ret (Some x, d), (v, w)) /\
    dr_n d = n - 1 /\ (exists d', drain_next d (v, w) = (Ret (Some x, d'), (v, w))) /\
    (n = 2 -> exists d', drain_next_back d (v, w) = (Ret (Some x, d'), (v, w))).
Proof.
  intros EN T EL v w xs a n s e o x Hz Hre Hn Ha Hx. pose proof (reached_rep Hz _ _ _ Hre) as [Hl [rest Ho]].
  exists (Drain (a + n - 1) (n - 1) s e o). unfold drain_next_back, drain_next.
  cbn [dr_n dr_base dr_start dr_end dr_orig].
  destruct (N.eqb_spec n 0) as [E|_]; [clear -E Hn; lia|].
  destruct (N.eqb_spec (n - 1) 0) as [E|_]; [clear -E Hn; lia|].
  split_and!; try done.
  - by erewrite bind_Ret by (by eapply (vread (L:=vec_laws Hz))).
  - eexists. by erewrite bind_Ret by (by eapply (vread (L:=vec_laws Hz))).
  - intros ->. eexists. erewrite bind_Ret; [reflexivity|]. eapply (vread (L:=vec_laws Hz)); [exact Ho|].
    by replace (a + 2 - 1 + (2 - 1) - 1) with (a + 2 - 1) by (clear; lia).
Qed.
Lemma x_C17_next_ex :
  @reached env_debug N num_drop (v123 env_debug num_drop) (w123 env_debug num_drop) [1; 2; 3].
Proof. apply reached123_drop. Qed.
Lemma x_C17_drain_ex :
  @reached env_debug N num_drop (v123 env_debug num_drop) (w123 env_debug num_drop) [1; 2; 3] /\
  fst (@drain_new env_debug N vec (@vec_vecx env_debug N num_drop) (Included 0) (Excluded 2)
        (v123 env_debug num_drop, w123 env_debug num_drop)) = Panic PIndex.
Proof. split; [apply reached123_drop|by vm_compute]. Qed.

(** * C18 *)

(** [split_off] always leaves the vector as it was; the vector it returns is empty. *)
Lemma p_C18_split_off_refuted : forall (EN : Env) (T : Type) (EL : Elem T) v (w : world T) xs at_,
  0 < t_size -> reached v w xs ->
  exists r w', vec_split_off at_ (v, w) = (r, (v, w')) /\ vec_as_slice v w' = (Ret xs, w') /\
    ((exists o, r = Ret o /\ vec_as_slice o w' = (Ret [], w') /\ vcap o = llen xs - at_) \/
     (r = Panic PUnwrap /\ refuses)).
Proof.
  intros EN T EL v w xs at_ Hz Hre. pose proof (reached_rep Hz _ _ _ Hre) as Hr.
  destruct (split_off_ok Hz w v xs at_ Hr) as (r&w'&He&Hr'&Hcase). exists r, w'.
  split_and!; [done|by apply (as_slice_ok Hz)|].
  destruct Hcase as [(o&->&Ho&_&Hc)|(->&_&?)]; [left|by right]. exists o.
  split_and!; try done. by apply (as_slice_ok Hz).
Qed.
Lemma x_C18_split_off_ex :
  @reached env_debug N num_drop (v123 env_debug num_drop) (w123 env_debug num_drop) [1; 2; 3] /\
  exists o v' w', @vec_split_off env_debug N num_drop 1
      (v123 env_debug num_drop, w123 env_debug num_drop) = (Ret o, (v', w')) /\ v_len o = 0.
Proof. split; [apply reached123_drop|]. eexists _, _, _. split; vm_compute; reflexivity. Qed.

(** * C19 *)

Lemma p_C19_into_iter : forall (EN : Env) (T : Type) (EL : Elem T) v (w : world T) xs n,
  0 < t_size -> no_drop_panic -> reached v w xs ->
  exists i i' w',
    it_run (replicate n true) (vec_into_iter v, w) =
      (Ret <$> (Some <$> take n xs) ++ replicate (n - length xs) None, (i, w)) /\
    it_drop (i, w) = (Ret tt, (i', w')) /\
    drops w' = drops w ++ drop n xs /\ heap w' = delete_ptr (vdata v) (heap w).
Proof.
  intros EN T EL v w xs n Hz Hnd Hre. pose proof (reached_rep Hz _ _ _ Hre) as Hr.
  destruct (it_front Hz n v w xs Hr) as (i&ys&He&Hi&Hv&_).
  destruct (it_drop_ok Hz w i ys _ Hi Hnd) as (i'&w'&Hd&Hh&Hds&_).
  exists i, i', w'. split_and!; try done. rewrite Hh. unfold vrest. by rewrite Hv.
Qed.
Lemma x_C19_into_iter_ex :
  @reached env_debug N num_drop (v123 env_debug num_drop) (w123 env_debug num_drop) [1; 2; 3] /\
  fst (@it_run env_debug N num_drop [true; true]
        (vec_into_iter (v123 env_debug num_drop), w123 env_debug num_drop)) = [Ret (Some 1); Ret (Some 2)].
Proof. split; [apply reached123_drop|by vm_compute]. Qed.

(** * C20 *)

(** Any interleaving that never takes from the back of an exhausted iterator. *)
Lemma p_C20_double_ended_partial : forall (EN : Env) (T : Type) (EL : Elem T) v (w : world T) xs cs,
  0 < t_size -> no_drop_panic -> reached v w xs -> deque_ok cs xs ->
  exists i i' w',
    it_run cs (vec_into_iter v, w) = (Ret <$> fst (deque cs xs), (i, w)) /\
    it_drop (i, w) = (Ret tt, (i', w')) /\
    drops w' = drops w ++ snd (deque cs xs) /\ heap w' = delete_ptr (vdata v) (heap w).
Proof.
  intros EN T EL v w xs cs Hz Hnd Hre Hok. pose proof (reached_rep Hz _ _ _ Hre) as Hr.
  destruct (it_run_ok Hz cs _ _ _ _ (into_iter_rep _ _ _ Hr) Hok) as (i&ys&He&Hi&Hv).
  destruct (it_drop_ok Hz w i ys _ Hi Hnd) as (i'&w'&Hd&Hh&Hds&_).
  exists i, i', w'. split_and!; try done. rewrite Hh. unfold vrest. by rewrite Hv.
Qed.
Lemma x_C20_double_ended_ex :
  @reached env_debug N num_drop (v123 env_debug num_drop) (w123 env_debug num_drop) [1; 2; 3] /\
  deque_ok [false; true; true; false] [1; 2; 3; 4] /\
  deque [false; true; true; false] [1; 2; 3; 4] = ([Some 4; Some 1; Some 2; Some 3], []).
Proof. split; [apply reached123_drop|]. by split. Qed.

(** When the front has taken everything, the back yields the last element again; dropping the
    iterator then panics in debug builds and is undefined in release builds. *)
Lemma p_C20_double_ended_refuted : forall (EN : Env) (T : Type) (EL : Elem T) v (w : world T) xs,
  0 < t_size -> reached v w xs -> xs <> [] ->
  exists i i', it_run (replicate (length xs) true) (vec_into_iter v, w) =
      (Ret <$> (Some <$> xs), (i, w)) /\
    it_next_back (i, w) = (Ret (last xs), (i', w)) /\
    (e_checks = true -> exists st, it_drop_body (i', w) = (Panic PArith, st)) /\
    (e_checks = false -> exists st, it_drop (i', w) = (UB Precond, st)).
Proof.
  intros EN T EL v w xs Hz Hre Hne. pose proof (reached_rep Hz _ _ _ Hre) as Hr.
  destruct (it_front Hz (length xs) v w xs Hr) as (i&ys&He&Hi&Hv&_&Hlast).
  destruct Hlast as (x&zs&Hx&->); [done|done|].
  rewrite take_ge, Nat.sub_diag, app_nil_r in He by done. rewrite drop_ge in Hi by done.
  destruct (next_back_again Hz w i zs x Hi) as (i'&Hb&Hix&Hr').
  exists i, i'. split_and!; [done|by rewrite Hb, Hx|..];
    destruct (it_drop_crossed Hz w i' zs Hix Hr') as [[? ?]|[? ?]]; congruence || done.
Qed.
Lemma x_C20_double_ended_refuted_ex :
  fst (@it_run env_debug N num_drop [true; true; true; false]
        (vec_into_iter (v123 env_debug num_drop), w123 env_debug num_drop))
    = [Ret (Some 1); Ret (Some 2); Ret (Some 3); Ret (Some 3)].
Proof. by vm_compute. Qed.

(** * C21 *)

Lemma p_C21_as_slice_partial : forall (EN : Env) (T : Type) (EL : Elem T) v (w : world T) xs n,
  0 < t_size -> reached v w xs ->
  exists i, snd (it_run (replicate n true) (vec_into_iter v, w)) = (i, w) /\
    it_as_slice i w = (Ret (drop n xs), w).
Proof.
  intros EN T EL v w xs n Hz Hre. pose proof (reached_rep Hz _ _ _ Hre) as Hr.
  destruct (it_front Hz n v w xs Hr) as (i&ys&He&Hi&_). exists i. rewrite He. split; [done|].
  by apply (it_as_slice_ok Hz w i ys).
Qed.
(** The reported length ignores what was taken from the front. *)
Lemma p_C21_size_hint_refuted : forall (EN : Env) (T : Type) (EL : Elem T) v (w : world T) xs n,
  0 < t_size -> reached v w xs ->
  exists i, snd (it_run (replicate n true) (vec_into_iter v, w)) = (i, w) /\
    it_size_hint i = llen xs.
Proof.
  intros EN T EL v w xs n Hz Hre. pose proof (reached_rep Hz _ _ _ Hre) as Hr.
  destruct (it_front Hz n v w xs Hr) as (i&ys&He&Hi&_&Hl&_). exists i. by rewrite He.
Qed.
Lemma x_C21_size_hint_ex :
  let st := @it_run env_debug N num_drop [true; true]
        (vec_into_iter (v123 env_debug num_drop), w123 env_debug num_drop) in
  it_size_hint (fst (snd st)) = 3 /\ fst (@it_as_slice env_debug N num_drop (fst (snd st)) (snd (snd st))) = Ret [3].
Proof. by split; vm_compute. Qed.

(** * C22 *)

(** [From<&[T]>] panics on every non-empty slice. *)
Lemma p_C22_from_slice_refuted : forall (EN : Env) (T : Type) (EL : Elem T) (w : world T) l,
  0 < t_size -> wok w -> l <> [] -> exists w', vec_from_slice l w = (Panic PLen, w') /\ heap w' = heap w.
Proof.
  intros EN T EL w l Hz Hw Hl. destruct (from_slice_ok Hz w l Hw) as (r&w'&He&(Hh&_)&Hcase).
  destruct l; [done|]. subst r. by exists w'.
Qed.
Lemma p_C22_from_slice_partial : forall (EN : Env) (T : Type) (EL : Elem T) (w : world T),
  0 < t_size -> wok w -> exists v w', vec_from_slice [] w = (Ret v, w') /\
    vec_as_slice v w' = (Ret [], w') /\ heap w' = heap w.
Proof.
  intros EN T EL w Hz Hw. destruct (from_slice_ok Hz w [] Hw) as (r&w'&He&(Hh&_)&(v&->&Hr&_)).
  exists v, w'. split_and!; try done. by apply (as_slice_ok Hz).
Qed.
Lemma x_C22_from_slice_ex : wok w_start /\ fst (@vec_from_slice env_debug N num [4] w_start) = Panic PLen.
Proof. split; [apply w_start_ok|by vm_compute]. Qed.

(** * C23 *)

Lemma p_C23_from_array : forall (EN : Env) (T : Type) (EL : Elem T) (w : world T) l,
  0 < t_size -> no_drop_panic -> wok w -> llen l * t_size <= isize_max + 1 - t_align ->
  exists r w', vec_from_array l w = (r, w') /\
    ((exists v, r = Ret v /\ vec_as_slice v w' = (Ret l, w') /\ vcap v = llen l /\
        delete_ptr (vdata v) (heap w') = heap w /\ drops w' = drops w) \/
     (r = Panic PUnwrap /\ refuses /\ heap w' = heap w /\ drops w' = drops w ++ l)).
Proof.
  intros EN T EL w l Hz Hnd Hw Hf.
  destruct (from_array_ok Hz w l Hw Hnd Hf) as (r&w'&He&[(v&->&Hr&(Hh&Hd&_)&Hc)|(->&(Hh&Hd&_)&?)]);
    eexists _, w'; (split; [done|]).
  - left. exists v. rewrite app_nil_r in Hd. split_and!; try done. by apply (as_slice_ok Hz).
  - by right.
Qed.
Lemma p_C23_from_iter : forall (EN : Env) (T : Type) (EL : Elem T) (w : world T) it hint,
  0 < t_size -> no_drop_panic -> wok w ->
  N.max (llen it) hint * t_size <= isize_max + 1 - t_align ->
  exists r w', vec_from_iter it hint w = (r, w') /\
    ((exists v ys, r = Ret v /\ it = Some <$> ys /\ vec_as_slice v w' = (Ret ys, w') /\
        delete_ptr (vdata v) (heap w') = heap w /\ drops w' = drops w) \/
     (exists ys it', r = Panic PUser /\ it = (Some <$> ys) ++ None :: it' /\
        heap w' = heap w /\ drops w' = drops w ++ ys) \/
     (r = Panic PUnwrap /\ refuses /\ heap w' = heap w /\ drops w' = drops w) \/
     (exists ys y it', r = Panic PUnwrap /\ refuses /\ it = (Some <$> ys) ++ Some y :: it' /\
        hint < llen it /\ heap w' = heap w /\ drops w' = drops w ++ y :: ys)).
Proof.
  intros EN T EL w it hint Hz Hnd Hw Hf.
  destruct (from_iter_ok Hz w it hint Hw Hnd Hf) as (r&w'&He&Hcase). exists r, w'. split; [done|].
  destruct Hcase as [(v&ys&->&Hi&Hr&(Hh&Hd&_))|[(ys&it'&->&Hi&(Hh&Hd&_))|
                     [(->&(Hh&Hd&_)&?)|(ys&y&it'&->&Hi&(Hh&Hd&_)&?&?)]]].
  - left. exists v, ys. rewrite app_nil_r in Hd. split_and!; try done. by apply (as_slice_ok Hz).
  - right; left. by exists ys, it'.
  - right; right; left. rewrite app_nil_r in Hd. done.
  - right; right; right. by exists ys, y, it'.
Qed.
Lemma p_C23_clone : forall (EN : Env) (T : Type) (EL : Elem T) v (w : world T) xs,
  0 < t_size -> no_drop_panic -> reached v w xs ->
  exists r w', vec_clone v w = (r, w') /\ vec_as_slice v w' = (Ret xs, w') /\
    ((exists v' ys, r = Ret v' /\ Forall2 (fun x y => t_clone x = Some y) xs ys /\
        vec_as_slice v' w' = (Ret ys, w') /\
        delete_ptr (vdata v') (heap w') = heap w /\ drops w' = drops w) \/
     (exists l1 x l2 ys, r = Panic PUser /\ xs = l1 ++ x :: l2 /\ t_clone x = None /\
        Forall2 (fun x y => t_clone x = Some y) l1 ys /\
        heap w' = heap w /\ drops w' = drops w ++ ys) \/
     (r = Panic PUnwrap /\ refuses /\ heap w' = heap w /\ drops w' = drops w)).
Proof.
  intros EN T EL v w xs Hz Hnd Hre. pose proof (reached_rep Hz _ _ _ Hre) as Hr.
  destruct (clone_ok Hz w v xs Hr Hnd) as (r&w'&He&Hcase). exists r, w'. split; [done|].
  assert (forall w2 : world T, wok w2 -> heap w2 = heap w -> rep w2 v xs) as Hsame.
  { intros w2 Hw2 Hh. destruct Hr as [Hl [rest (_&Hs&Hb&Hm)]]. split; [done|]. exists rest.
    split_and!; try done. destruct (vdata v) as [|b]; [done|]. rewrite Hh. destruct Hm as (?&?&?).
    split_and!; try done. destruct (N.ltb_spec b (next_id w2)); [done|].
    destruct Hw2 as [_ Hf2]. specialize (Hf2 b). rewrite Hh in Hf2. rewrite Hf2 in * by done. done. }
  destruct Hcase as [(v'&ys&->&Hm&Hr'&(Hh&Hd&_&_&Hw'))|[(l1&x&l2&ys&->&Hx&Hc&Hm&(Hh&Hd&_&_&Hw'))|
                     (->&(Hh&Hd&_&_&Hw')&?)]].
  - split; [|left; exists v', ys; rewrite app_nil_r in Hd; split_and!; try done;
             [by apply mapM_Some|by apply (as_slice_ok Hz)]].
    apply (as_slice_ok Hz). destruct Hr as [Hl [rest (_&Hs&Hb&Hm1)]]. split; [done|]. exists rest.
    split_and!; try done. destruct (vdata v) as [|b] eqn:Ev; [done|]. destruct Hm1 as (?&Hlt&Hlk).
    unfold vrest in Hh. rewrite <-Hh in Hlk.
    assert (heap w' !! b = Some (Block (sp_alloc (v_ptr v)) (layout_of (v_ptr v))
              ((Some <$> xs) ++ rest))) as Hlk'.
    { destruct (vdata v'); simpl in Hlk; [done|]. by apply lookup_delete_Some in Hlk as [_ ?]. }
    split_and!; try done. destruct (N.ltb_spec b (next_id w')); [done|].
    destruct Hw' as [_ Hf2]. specialize (Hf2 b ltac:(done)). congruence.
  - split; [by apply (as_slice_ok Hz), Hsame|]. right; left. exists l1, x, l2, ys.
    split_and!; try done. by apply mapM_Some.
  - split; [by apply (as_slice_ok Hz), Hsame|]. right; right. by rewrite app_nil_r in Hd.
Qed.
Lemma x_C23_ex : wok w_start /\
  @reached env_debug N num_drop (v123 env_debug num_drop) (w123 env_debug num_drop) [1; 2; 3] /\
  (exists v w', @vec_from_iter env_debug N num_drop [Some 1; Some 2] 0 w_start = (Ret v, w') /\ v_len v = 2) /\
  (exists v w', @vec_from_array env_debug N num_drop [7; 8] w_start = (Ret v, w') /\ v_len v = 2) /\
  exists v w', @vec_clone env_debug N num_drop (v123 env_debug num_drop) (w123 env_debug num_drop)
    = (Ret v, w') /\ v_len v = 3.
Proof.
  split; [apply w_start_ok|]. split; [apply reached123_drop|].
  split_and!; eexists _, _; split; vm_compute; reflexivity.
Qed.

(** * C24 *)

(** The slice [leak] returns points to memory that was released, its elements destroyed. *)
Lemma p_C24_leak_refuted : forall (EN : Env) (T : Type) (EL : Elem T) v (w : world T) xs,
  0 < t_size -> no_drop_panic -> reached v w xs -> xs <> [] ->
  exists p w', vec_leak v w = (Ret (p, llen xs), w') /\ drops w' = drops w ++ xs /\
    forall i, fst (read_at p i w') = UB UseAfterFree.
Proof.
  intros EN T EL v w xs Hz Hnd Hre Hne. pose proof (reached_rep Hz _ _ _ Hre) as Hr.
  destruct (leak_ok Hz w v xs Hr Hnd) as (w'&He&(Hh&Hd&_)). exists (vdata v), w'.
  split_and!; try done. intros i. destruct (rep_blk Hz v w xs Hr Hne) as [b Hb].
  unfold read_at. destruct (N.eqb_spec t_size 0); [lia|]. unfold bind, get_slots.
  rewrite Hb, Hh. unfold vrest. rewrite Hb. simpl. by rewrite lookup_delete.
Qed.
Lemma x_C24_leak_ex :
  @reached env_debug N num_drop (v123 env_debug num_drop) (w123 env_debug num_drop) [1; 2; 3] /\
  fst (@vec_leak N num_drop (v123 env_debug num_drop) (w123 env_debug num_drop)) = Ret (Blk 4, 3).
Proof. split; [apply reached123_drop|by vm_compute]. Qed.

(** * C25 *)

(** Non-empty vectors. *)
Lemma p_C25_boxed_slice_partial : forall (EN : Env) (T : Type) (EL : Elem T) v (w : world T) xs,
  0 < t_size -> no_drop_panic -> reached v w xs -> xs <> [] ->
  exists r w', vec_into_boxed_slice v w = (r, w') /\
    ((exists b, r = Ret b /\ sp_len b = llen xs /\ drops w' = drops w /\
        vec_as_slice (vec_from_box b) w' = (Ret xs, w') /\
        exists w2, box_drop b w' = (Ret tt, w2) /\ drops w2 = drops w' ++ xs /\
          heap w2 = delete_ptr (vdata v) (heap w)) \/
     (r = Panic PUnwrap /\ refuses /\ drops w' = drops w ++ xs /\
        heap w' = delete_ptr (vdata v) (heap w))).
Proof.
  intros EN T EL v w xs Hz Hnd Hre Hne. pose proof (reached_rep Hz _ _ _ Hre) as Hr.
  destruct (into_boxed_slice_ok Hz w v xs Hr Hne Hnd) as (r&w'&He&Hcase). exists r, w'.
  split; [done|]. destruct Hcase as [(b&->&Hb&Hh&Hd&_)|(->&(Hh&Hd&_)&?)]; [left|by right].
  exists b. rewrite app_nil_r in Hd.
  assert (drops_glue false xs = (xs, Ret tt)) as Hg.
  { clear -Hnd. induction xs as [|x xs IH]; simpl; [done|]. by rewrite Hnd, andb_false_r, IH. }
  destruct (box_drop_slice_ok Hz w' b xs Hb) as (w2&Hbd&Hh2&Hd2&_); [by rewrite Hg|].
  rewrite Hg in Hd2. split_and!; try done; [by destruct Hb|by apply (as_slice_ok Hz), box_into_vec_ok|].
  exists w2. split_and!; try done. rewrite Hh2. exact Hh.
Qed.
Lemma x_C25_boxed_slice_ex :
  @reached env_debug N num_drop (v123 env_debug num_drop) (w123 env_debug num_drop) [1; 2; 3] /\
  exists b w', @vec_into_boxed_slice env_debug N num_drop (v123 env_debug num_drop) (w123 env_debug num_drop)
    = (Ret b, w') /\ sp_len b = 3.
Proof. split; [apply reached123_drop|]. eexists _, _. split; vm_compute; reflexivity. Qed.
(** The boxed slice of a new vector cannot be dropped. *)
Lemma p_C25_boxed_slice_refuted : forall (EN : Env) (T : Type) (EL : Elem T) v (w : world T),
  0 < t_size -> reached v w [] -> vcap v = 0 ->
  exists b, vec_into_boxed_slice v w = (Ret b, w) /\ box_drop b w = (UB Dangling_access, w).
Proof.
  intros EN T EL v w Hz Hre Hc. apply (box_empty_drop Hz); [|done]. by apply (reached_rep Hz).
Qed.
Lemma x_C25_boxed_slice_refuted_ex :
  let st := @demo env_debug N num_drop w_start [] in
  @reached env_debug N num_drop (fst st) (snd st) [] /\ @vcap N num_drop (fst st) = 0.
Proof. split; [by apply demo_reached; [apply w_start_ok|..]; vm_compute|by vm_compute]. Qed.

(** * C26 *)

(** With a non-zero starting capacity the marker is kept and used by every later selection of an
    allocator, over all histories without [append] (which creates a second vector). *)
Lemma p_C26_marker_partial : forall (EN : Env) (T : Type) (EL : Elem T) (w : world T) c m v0 w0 ops outs v w1,
  0 < t_size -> c <> 0 -> vec_try_with_capacity_and_marker c m w = (Ret (Ok v0), w0) ->
  Forall (fun op => match op with OAppend _ => False | _ => True end) ops ->
  vrun ops (v0, w0) = (outs, (v, w1)) ->
  vmarker v = m /\
  exists evs, events w1 = events w ++ evs /\
    Forall (fun e => match e with EvSelect _ s => sel_marker s = m | _ => True end) evs.
Proof.
  intros EN T EL w c m v0 w0 ops outs v w1 Hz Hc Hn Hops He.
  destruct (try_with_capacity_marker c m w _ w0 Hc ltac:(lia) Hn) as [(e1&He1&Hf1) Hm].
  specialize (Hm v0 eq_refl).
  pose proof (marked_vrun ops Hops (v0, w0)) as [H1 (e2&He2&Hf2)]. rewrite He in *. simpl in *.
  split; [congruence|]. exists (e1 ++ e2). split; [by rewrite He2, He1, app_assoc|].
  apply Forall_app. split; [done|]. by rewrite Hm in Hf2.
Qed.
Lemma x_C26_marker_ex : exists v0 w0 outs v w1,
  @vec_try_with_capacity_and_marker env_debug N num 2 (MType 3) w_start = (Ret (Ok v0), w0) /\
  @vrun env_debug N num [OPush 1; OPush 2; OPush 3; OReserve 9] (v0, w0) = (outs, (v, w1)) /\
  vmarker v = MType 3 /\ length (events w1) = 4%nat.
Proof.
  eexists _, _, _, _, _. split; [vm_compute; reflexivity|]. split; [vm_compute; reflexivity|].
  by split; vm_compute.
Qed.
(** Without a starting capacity the marker is forgotten. *)
Lemma p_C26_marker_refuted : forall (EN : Env) (T : Type) (EL : Elem T) (w : world T) m v w',
  vec_with_marker m w = (Ret v, w') \/ vec_try_with_capacity_and_marker 0 m w = (Ret (Ok v), w') ->
  vmarker v = MNone.
Proof.
  intros EN T EL w m v w' [H|H]; [|unfold vec_try_with_capacity_and_marker in H; simpl in H];
    unfold vec_with_marker, alloc_for, bind in H; destruct (cur_scope w); try done;
    by injection H as <- _.
Qed.
Lemma x_C26_marker_refuted_ex : exists v w',
  @vec_with_marker env_debug N num (MType 3) w_start = (Ret v, w') /\ vmarker v = MNone.
Proof. eexists _, _. split; vm_compute; reflexivity. Qed.

(** * C27 *)

(** The allocator log of every history (and of the final drop) is one a monitor accepts: every
    release and resize names a live block, its allocator and its layout; the monitor's live blocks
    are those of the heap.  No restriction on arguments, sizes or destructors. *)
Lemma p_C27_allocator_log : forall (EN : Env) (T : Type) (EL : Elem T) (w : world T) ops r w0,
  fresh_ids w -> vec_new w = (r, w0) ->
  forall v0 outs v w1 r2 w2, r = Ret v0 -> vrun ops (v0, w0) = (outs, (v, w1)) ->
  vec_drop_val v w1 = (r2, w2) ->
  (exists evs, events w1 = events w ++ evs /\ replay (live_blocks w) evs = Some (live_blocks w1)) /\
  (exists evs, events w2 = events w ++ evs /\ replay (live_blocks w) evs = Some (live_blocks w2)).
Proof.
  intros EN T EL w ops r w0 Hf Hn v0 outs v w1 r2 w2 -> He Hd.
  pose proof (logged_start w Hf) as Hs.
  assert (logged (live_blocks w) (events w) w0) as Hs0.
  { pose proof (pres_alloc_for (live_blocks w) (events w) (Selector MNone t_name) w Hs) as H.
    unfold vec_new, vec_with_marker, bind in Hn. destruct (alloc_for _ w) as [[]]; try done.
    by injection Hn as <- <-. }
  pose proof (logged_vrun (live_blocks w) (events w) ops (v0, w0) Hs0) as Hs1. rewrite He in Hs1.
  pose proof (pres_vec_drop_val (live_blocks w) (events w) v w1 Hs1) as Hs2. rewrite Hd in Hs2.
  split; [by destruct Hs1|by destruct Hs2].
Qed.
(** No call and no final drop releases or uses memory wrongly.  The final drop either returns, and
    everything is given back, or a destructor of an element panicked. *)
Lemma p_C27_no_bad_release : forall (EN : Env) (T : Type) (EL : Elem T) (w : world T) ops v0 w0 outs v w1,
  0 < t_size -> wok w ->
  N.max (2 * total_demand ops) 8 * t_size <= isize_max + 1 - t_align ->
  vec_new w = (Ret v0, w0) -> vrun ops (v0, w0) = (outs, (v, w1)) ->
  Forall (fun r => forall u, r = UB u -> u = Overlap \/ u = ZeroSizeAlloc) outs /\
  (Forall defined outs -> exists r w2, vec_drop_val v w1 = (r, w2) /\
    (r = Ret tt /\ live_blocks w2 = live_blocks w \/
     r = Panic PDrop /\ exists x, t_needs_drop = true /\ t_drop_panics x = true)).
Proof.
  intros EN T EL w ops v0 w0 outs v w1 Hz Hw Hf Hn He. split.
  - destruct (new_born Hz w Hw) as (v1&w2&Hn'&Hrep&_&_&Hc). rewrite Hn in Hn'. injection Hn' as <- <-.
    destruct (run_gen Hz ops 0 w0 v0 [] Hrep) as (o2&v3&w3&He'&Hcase);
      [lia|simpl; lia|by rewrite N.add_0_l|].
    rewrite He in He'. injection He' as <- <- <-.
    assert (forall o : list (res (vret T)), Forall defined o ->
      Forall (fun r => forall u, r = UB u -> u = Overlap \/ u = ZeroSizeAlloc) o) as Hdef.
    { intros o Ho. eapply Forall_impl; [exact Ho|]. by intros r [[? ->]|[? ->]] u. }
    destruct Hcase as [(ins&xs&ds&_&_&_&Hd)|(pre&op&post&ins&outs'&xs&ds&o&_&->&Ht&Ho)]; [by apply Hdef|].
    apply Forall_app. split.
    + apply Hdef. by eapply dtrace_defined.
    + constructor; [|constructor]. intros u' Hu'.
      destruct Ho as [(u&->&Hu)|(->&_)]; [|done]. injection Hu' as <-.
      destruct Hu as [(_&_&->&_)|(_&_&->)]; auto.
  - intros Hd. destruct (new_run_gen w ops v0 w0 outs v w1) as (ins&xs&ds&Ht&Hr&Hv&Hds); try done.
    destruct (drop_exact Hz w1 v xs Hr) as (w2&Hdr&Hd2&Hg).
    eexists _, w2. split; [exact Hdr|]. destruct (culprits drop_panics xs) as [|x l] eqn:E.
    + left. split; [done|]. unfold live_blocks. by rewrite Hg, <-Hv.
    + right. split; [done|]. exists x.
      assert (In x (culprits drop_panics xs)) as Hin by (rewrite E; by left).
      unfold culprits in Hin. apply filter_In in Hin as [_ Hin]. by apply andb_true_iff in Hin.
Qed.
Lemma x_C27_ex :
  let ops := [OPush 1; OSetScope 9; OPush 2; OSetScope 7; OReserve 5] in
  let st := @demo env_debug N num_drop w_start ops in
  wok w_start /\ fresh_ids w_start /\ Forall defined (@demo_outs env_debug N num_drop w_start ops) /\
  events (snd (@vec_drop_val N num_drop (fst st) (snd st))) =
    [EvSelect 7 (Selector MNone 2); EvSelect 7 (Selector MNone 2); EvAlloc 7 (Layout 8 8) (Some 1);
     EvRealloc 7 1 (Layout 8 8) 16 (Some 2); EvRealloc 7 2 (Layout 16 8) 56 (Some 3);
     EvDealloc 7 3 (Layout 56 8)].
Proof.
  split; [apply w_start_ok|]. split; [apply w_start_ok|].
  split; [by apply definedb_ok; vm_compute|]. vm_compute. reflexivity.
Qed.

(** * C28 *)

Lemma drops_glue_res {T} {EL : Elem T} l : forall b,
  snd (drops_glue b l) = Ret tt \/ snd (drops_glue b l) = Panic PDrop \/ snd (drops_glue b l) = Abort.
Proof.
  induction l as [|x l IH]; intros b; simpl; [destruct b; auto|].
  destruct (t_needs_drop && t_drop_panics x); [destruct b; [auto|]|];
    [specialize (IH true)|specialize (IH b)]; by destruct (drops_glue _ l).
Qed.

(** Truncating and then dropping a vector whose elements' destructors may panic.  (A second panic
    while the first one unwinds ends the process: [Abort].) *)
Lemma p_C28_truncate_drop_partial : forall (EN : Env) (T : Type) (EL : Elem T) l v (w : world T) n,
  0 < t_size -> reached v w l ->
  let panics x := t_needs_drop && t_drop_panics x in
  let cut := drop (N.to_nat n) l in let kept := take (N.to_nat n) l in
  exists r v' w' r2 w2,
    vec_truncate n (v, w) = (r, (v', w')) /\ vec_drop_val v' w' = (r2, w2) /\
    r = match culprits panics cut with [] => Ret tt | [_] => Panic PDrop | _ => Abort end /\
    drops w' = drops w ++ up_to panics 2 cut /\ vec_as_slice v' w' = (Ret kept, w') /\
    r2 = match culprits panics kept with [] => Ret tt | _ => Panic PDrop end /\
    drops w2 = drops w' ++ up_to panics 1 kept /\
    heap w2 = match culprits panics kept with [] => delete_ptr (vdata v) (heap w) | _ => heap w end /\
    up_to panics 2 cut ++ up_to panics 1 kept ⊆+ l.
Proof.
  intros EN T EL l v w n Hz Hp. cbv zeta. pose proof (reached_rep Hz _ _ _ Hp) as Hr.
  change (fun x : T => t_needs_drop && t_drop_panics x) with (@drop_panics T EL).
  destruct (truncate_ok Hz w v l n Hr) as (v'&He&Hr'&Hv).
  destruct (drops_glue_up_to (drop (N.to_nat n) l)) as [_ E]. rewrite E in He. simpl in He.
  set (w' := add_drops (up_to drop_panics 2 (drop (N.to_nat n) l)) w) in *.
  assert (Hr1 : rep w' v' (take (N.to_nat n) l)).
  { destruct Hr' as [Hl [rest Ho]]. split; [done|]. exists rest. by apply owns_drops. }
  destruct (drop_exact Hz _ _ _ Hr1) as (w2&Hd&Hd2&Hh2).
  eexists _, v', w', _, w2. split_and!; [exact He|exact Hd|done|apply drops_add_drops|by apply (as_slice_ok Hz)|done|done| |].
  - rewrite Hh2. unfold w'. rewrite heap_add_drops. by replace (vdata v') with (vdata v) by (unfold vdata; by rewrite Hv).
  - rewrite <-(take_drop (N.to_nat n) l) at 3.
    destruct (drops_glue_prefix (drop (N.to_nat n) l) false) as [l1 Hl1]. rewrite E in Hl1. simpl in Hl1.
    destruct (drops_until_prefix (take (N.to_nat n) l)) as [l2 Hl2]. rewrite drops_until_up_to in Hl2. simpl in Hl2.
    set (d1 := up_to drop_panics 2 _) in *. set (d2 := up_to drop_panics 1 _) in *. rewrite Hl1, Hl2.
    rewrite (Permutation_app_comm (d2 ++ l2) (d1 ++ l1)), <-!app_assoc.
    apply submseteq_skips_l, submseteq_inserts_l, submseteq_inserts_r. done.
Qed.
Lemma p_C28_drop_partial : forall (EN : Env) (T : Type) (EL : Elem T) l v (w : world T),
  0 < t_size -> reached v w l ->
  let panics x := t_needs_drop && t_drop_panics x in
  exists w', vec_drop_val v w = (match culprits panics l with [] => Ret tt | _ => Panic PDrop end, w') /\
    drops w' = drops w ++ up_to panics 1 l /\
    heap w' = match culprits panics l with [] => delete_ptr (vdata v) (heap w) | _ => heap w end.
Proof. intros EN T EL l v w Hz Hp. exact (drop_exact Hz _ _ _ (reached_rep Hz _ _ _ Hp)). Qed.
Definition bombs : list N := [5; 13; 6; 7].
Notation bomb_st := (@demo env_debug N num_bomb w_start (OPush <$> bombs)).
Lemma x_C28_ex : @reached env_debug N num_bomb (fst bomb_st) (snd bomb_st) bombs /\
  fst (@vec_truncate env_debug N num_bomb 1 bomb_st) = Panic PDrop /\
  drops (snd (snd (@vec_truncate env_debug N num_bomb 1 bomb_st))) = [13; 6; 7].
Proof.
  split; [|split; vm_compute; reflexivity].
  by apply demo_reached; [apply w_start_ok|..]; vm_compute.
Qed.
(** [clear] interrupted by a panicking destructor, then the vector is dropped: the elements up to
    and including the culprit are destroyed twice. *)
Lemma p_C28_clear_refuted : forall (EN : Env) (T : Type) (EL : Elem T) l1 x l2 v (w : world T),
  0 < t_size -> reached v w (l1 ++ x :: l2) ->
  Forall (fun y => t_needs_drop && t_drop_panics y = false) l1 ->
  t_needs_drop = true -> t_drop_panics x = true ->
  exists w1 w2, vec_clear (v, w) = (Panic PDrop, (v, w1)) /\
    vec_drop_val v w1 = (Panic PDrop, w2) /\
    drops w2 = drops w ++ (l1 ++ [x]) ++ (l1 ++ [x]).
Proof.
  intros EN T EL l1 x l2 v w Hz Hp Hf H1 H2. pose proof (reached_rep Hz _ _ _ Hp) as Hr.
  destruct (clear_twice Hz w v l1 x l2 Hr Hf) as (w1&w2&He&Hd&Hd1&Hd2).
  { unfold bad. by rewrite H1, H2. }
  exists w1, w2. split_and!; try done. by rewrite Hd2, Hd1, !app_assoc.
Qed.
Lemma x_C28_clear_ex : @reached env_debug N num_bomb (fst bomb_st) (snd bomb_st) ([5] ++ 13 :: [6; 7]) /\
  Forall (fun y => @t_needs_drop N num_bomb && @t_drop_panics N num_bomb y = false) [5] /\
  @t_drop_panics N num_bomb 13 = true.
Proof. split; [apply x_C28_ex|]. split; [by repeat constructor|done]. Qed.

(** * C29 *)

Section defined.
  Context {EN : Env} {T : Type} {EL : Elem T}.
  Lemma defined_Ret {A} (a : A) : defined (Ret a). Proof. left. eauto. Qed.
  Lemma defined_Panic {A} p : defined (Panic p : res A). Proof. right. eauto. Qed.
  Hint Resolve defined_Ret defined_Panic : core.

  Lemma retain_run_defined {St} (f : St -> T -> St * option bool) xs : forall st,
    defined (fst (fst (retain_run f st xs))).
  Proof.
    induction xs as [|x xs IH]; intros st; simpl; [done|]. destruct (f st x) as [st' [[]|]]; simpl; auto.
    - specialize (IH st'). by destruct (retain_run f st' xs) as [[??]?].
    - destruct (t_needs_drop && t_drop_panics x); simpl; auto.
      specialize (IH st'). by destruct (retain_run f st' xs) as [[??]?].
  Qed.
  Lemma retain_all_defined {St} (f : St -> T -> St * option bool) xs st o k d :
    retain_all f st xs = (o, k, d) -> defined o.
  Proof.
    destruct xs as [|x xs]; simpl; [intros [= <- _ _]; auto|].
    destruct (f st x) as [st' [[]|]]; [| |intros [= <- _ _]; auto].
    - pose proof (retain_run_defined f (tail xs) st') as H.
      destruct (retain_run f st' (tail xs)) as [[??]?]. by intros [= <- _ _].
    - destruct (t_needs_drop && t_drop_panics x); [intros [= <- _ _]; auto|].
      pose proof (retain_run_defined f xs st') as H.
      destruct (retain_run f st' xs) as [[??]?]. by intros [= <- _ _].
  Qed.
  Lemma dedup_key_run_defined {St K} (keq : K -> K -> bool) (key : St -> T -> St * T * option K) xs :
    forall st prev, defined (fst (fst (dedup_key_run keq key st prev xs))).
  Proof.
    induction xs as [|x xs IH]; intros st prev; simpl; [done|].
    destruct (key st x) as [[st' x'] [k|]]; simpl; auto.
    destruct (keq prev k); [destruct (t_needs_drop && t_drop_panics x'); simpl; auto|].
    - specialize (IH st' prev). by destruct (dedup_key_run keq key st' prev xs) as [[??]?].
    - specialize (IH st' k). by destruct (dedup_key_run keq key st' k xs) as [[??]?].
  Qed.
  Lemma dedup_key_all_defined {St K} (keq : K -> K -> bool) (key : St -> T -> St * T * option K) xs
    st o k d : dedup_key_all keq key st xs = (o, k, d) -> defined o.
  Proof.
    destruct xs as [|x xs]; simpl; [intros [= <- _ _]; auto|].
    destruct (key st x) as [[st' x'] [k0|]]; [|intros [= <- _ _]; auto].
    pose proof (dedup_key_run_defined keq key (tail xs) st' k0) as H.
    destruct (dedup_key_run keq key st' k0 (tail xs)) as [[??]?]. by intros [= <- _ _].
  Qed.
  Lemma dedup_run_defined {St} (f : St -> T -> T -> St * (T * T) * option bool) xs :
    forall st h, defined (fst (fst (dedup_run f st h xs))).
  Proof.
    induction xs as [|x xs IH]; intros st h; simpl; [done|].
    destruct (f st x h) as [[st' [x' h']] [[]|]]; simpl; auto.
    - destruct (t_needs_drop && t_drop_panics x'); simpl; auto.
      specialize (IH st' h'). by destruct (dedup_run f st' h' xs) as [[??]?].
    - specialize (IH st' x'). by destruct (dedup_run f st' x' xs) as [[??]?].
  Qed.
  Lemma dedup_first_defined {St} (f : St -> T -> T -> St * (T * T) * option bool) xs :
    forall st h, defined (fst (fst (dedup_first f st h xs))).
  Proof.
    induction xs as [|x xs IH]; intros st h; simpl; [done|].
    destruct (f st x h) as [[st' [x' h']] [[]|]]; simpl; auto.
    - destruct (t_needs_drop && t_drop_panics x'); simpl; auto.
      specialize (IH st' h'). by destruct (dedup_first f st' h' xs) as [[??]?].
    - pose proof (dedup_run_defined f xs st' x') as H. by destruct (dedup_run f st' x' xs) as [[??]?].
  Qed.
  Lemma dedup_all_defined {St} (f : St -> T -> T -> St * (T * T) * option bool) xs st o k d :
    dedup_all f st xs = (o, k, d) -> defined o.
  Proof.
    destruct xs as [|x xs]; simpl; [intros [= <- _ _]; auto|]. intros H.
    pose proof (dedup_first_defined f (tail xs) st x) as H1. by rewrite H in H1.
  Qed.
End defined.

(** Whatever the callback does, including panicking at any call: afterwards the vector can be
    dropped, and no element has been destroyed twice. *)
Lemma p_C29_retain : forall (EN : Env) (T : Type) (EL : Elem T) (St : Type)
    (f : St -> T -> St * option bool) st v (w : world T) xs,
  0 < t_size -> no_drop_panic -> reached v w xs ->
  exists r v' w' w2 d, retain f st (v, w) = (r, (v', w')) /\ defined r /\
    vec_drop_val v' w' = (Ret tt, w2) /\ heap w2 = delete_ptr (vdata v) (heap w) /\
    drops w2 = drops w ++ d /\ d ⊆+ xs.
Proof.
  intros EN T EL St f st v w xs Hz Hnd Hre. pose proof (reached_rep Hz _ _ _ Hre) as Hr.
  destruct (vec_retain_ok Hz f st w v xs Hr) as (v'&w'&o&k&d&He&Ha&Hr'&Hk).
  destruct (vec_drop_val_gone Hz w' v' k Hr' Hnd) as (w2&Hdr&Hg&Hd2&_).
  destruct Hk as (Hk&Hds&_). exists o, v', w', w2, (d ++ k). split_and!; try done.
  - by eapply retain_all_defined.
  - unfold vrest in *; congruence.
  - by rewrite Hd2, Hds, app_assoc.
  - rewrite Permutation_app_comm. by eapply retain_all_sub.
Qed.
Lemma p_C29_dedup_by_key : forall (EN : Env) (T : Type) (EL : Elem T) (St K : Type)
    (keq : K -> K -> bool) (key : St -> T -> St * option K) st v (w : world T) xs,
  0 < t_size -> no_drop_panic -> reached v w xs ->
  exists r v' w' w2 d,
    dedup_by_key keq (fun st x => (fst (key st x), x, snd (key st x))) st (v, w) = (r, (v', w')) /\
    defined r /\
    vec_drop_val v' w' = (Ret tt, w2) /\ heap w2 = delete_ptr (vdata v) (heap w) /\
    drops w2 = drops w ++ d /\ d ⊆+ xs.
Proof.
  intros EN T EL St K keq key st v w xs Hz Hnd Hre. pose proof (reached_rep Hz _ _ _ Hre) as Hr.
  destruct (vec_dedup_by_key_ok Hz keq (fun st x => (fst (key st x), x, snd (key st x))) st w v xs Hr)
    as (v'&w'&o&k&d&He&Ha&Hr'&Hk).
  destruct (vec_drop_val_gone Hz w' v' k Hr' Hnd) as (w2&Hdr&Hg&Hd2&_).
  destruct Hk as (Hk&Hds&_). exists o, v', w', w2, (d ++ k). split_and!; try done.
  - by eapply dedup_key_all_defined.
  - unfold vrest in *; congruence.
  - by rewrite Hd2, Hds, app_assoc.
  - rewrite Permutation_app_comm. by eapply dedup_key_all_sub.
Qed.
Lemma p_C29_dedup_by : forall (EN : Env) (T : Type) (EL : Elem T) (St : Type)
    (f : St -> T -> T -> St * option bool) st v (w : world T) xs,
  0 < t_size -> no_drop_panic -> reached v w xs ->
  exists r v' w' w2 d,
    dedup_by (fun st a b => (fst (f st a b), (a, b), snd (f st a b))) st (v, w) = (r, (v', w')) /\
    defined r /\
    vec_drop_val v' w' = (Ret tt, w2) /\ heap w2 = delete_ptr (vdata v) (heap w) /\
    drops w2 = drops w ++ d /\ d ⊆+ xs.
Proof.
  intros EN T EL St f st v w xs Hz Hnd Hre. pose proof (reached_rep Hz _ _ _ Hre) as Hr.
  destruct (vec_dedup_by_ok Hz (fun st a b => (fst (f st a b), (a, b), snd (f st a b))) st w v xs Hr)
    as (v'&w'&o&k&d&He&Ha&Hr'&Hk).
  destruct (vec_drop_val_gone Hz w' v' k Hr' Hnd) as (w2&Hdr&Hg&Hd2&_).
  destruct Hk as (Hk&Hds&_). exists o, v', w', w2, (d ++ k). split_and!; try done.
  - by eapply dedup_all_defined.
  - unfold vrest in *; congruence.
  - by rewrite Hd2, Hds, app_assoc.
  - rewrite Permutation_app_comm. by eapply dedup_all_sub.
Qed.
(** The growing operations with callbacks: the call does what the specification says (also when
    the callback panics), and the later drop destroys exactly what is left. *)
Lemma p_C29_growing : forall (EN : Env) (T : Type) (EL : Elem T) v (w : world T) xs op,
  0 < t_size -> no_drop_panic -> reached v w xs ->
  match op with
  | OResize _ _ | OResizeWith _ _ | OExtendSlice _ | OExtendIter _ _ => True | _ => False end ->
  N.max (2 * N.max (llen xs) (vcap v) + 2 * demand op) 8 * t_size <= isize_max + 1 - t_align ->
  exists r v' w' w2 ins ys d,
    vexec op (v, w) = (r, (v', w')) /\ vspec refuses t_clone xs op ins r ys d /\
    vec_as_slice v' w' = (Ret ys, w') /\
    vec_drop_val v' w' = (Ret tt, w2) /\ heap w2 = delete_ptr (vdata v) (heap w) /\
    drops w2 = drops w ++ d ++ ys.
Proof.
  intros EN T EL v w xs op Hz Hnd Hre Hop Hf. pose proof (reached_rep Hz _ _ _ Hre) as Hr.
  destruct (step_ok Hz (N.max (llen xs) (vcap v)) op w v xs Hr) as (o&i1&v1&w1&xs1&d1&He&Hs1&Hr1&[Ha1 Ha2]&_);
    [lia|lia| | |done|].
  { by destruct op. }
  { eapply (fits_le Hz); [|exact Hf]. lia. }
  destruct (vec_drop_val_gone Hz w1 v1 xs1 Hr1 Hnd) as (w2&Hdr&Hg&Hd2&_).
  exists o, v1, w1, w2, i1, xs1, d1. split_and!; try done.
  - by apply (as_slice_ok Hz).
  - unfold vrest in *. congruence.
  - by rewrite Hd2, Ha2, app_assoc.
Qed.
Lemma x_C29_ex :
  @reached env_debug N num_drop (v123 env_debug num_drop) (w123 env_debug num_drop) [1; 2; 3] /\
  fst (@retain env_debug N vec (@vec_vecx env_debug N num_drop) unit (fun _ x => (tt, if x =? 3 then None else Some true)) tt
    (v123 env_debug num_drop, w123 env_debug num_drop)) = Panic PUser /\
  fst (@vexec env_debug N num_drop (OResizeWith 9 (fun k => if Nat.ltb k 2 then Some 4 else None))
    (v123 env_debug num_drop, w123 env_debug num_drop)) = Panic PUser.
Proof. split; [apply reached123_drop|]. by split; vm_compute. Qed.

(** * C30 *)

(** A vector of a zero-sized type with a single value follows the list specification (nothing is
    ever refused) and the allocator is never called. *)
Lemma p_C30_zst_history_partial : forall (EN : Env) (T : Type) (EL : Elem T) (w : world T) ops sc,
  t_size = 0 -> (forall x y : T, x = y) -> no_drop_panic -> cur_scope w = Some sc ->
  Forall (fun op => match op with OAppend _ => False | _ => True end) ops ->
  total_demand ops <= usize_max ->
  exists v0 w0 outs ins v w1 xs ds,
    vec_new w = (Ret v0, w0) /\ vrun ops (v0, w0) = (outs, (v, w1)) /\
    vtrace False t_clone [] ops ins outs xs ds /\ v_len v = llen xs /\
    heap w1 = heap w /\ ncalls w1 = ncalls w /\ drops w1 = drops w ++ ds.
Proof.
  intros EN T EL w ops sc Hz Hu Hnd Hs Hops Hd.
  assert (exists v0 w0, vec_new w = (Ret v0, w0) /\ zrep v0 ([] : list T) /\ heap w0 = heap w /\
    ncalls w0 = ncalls w /\ drops w0 = drops w) as (v0&w0&Hn&Hr0&H1&H2&H3).
  { unfold vec_new, vec_with_marker, alloc_for, bind. rewrite Hs. eexists _, _.
    split; [reflexivity|]. done. }
  destruct (z_run Hz (fun x => Hu x t_zst) ops v0 w0 [] Hr0) as (outs&ins&v&w1&xs&ds&He&Ht&Hr&Ha);
    [done|simpl; lia|done|].
  exists v0, w0, outs, ins, v, w1, xs, ds. destruct Ha as (Hh&Hd1&_&Hc&_). destruct Hr as [Hl _].
  split_and!; try done; congruence.
Qed.
Lemma x_C30_zst_history_ex :
  Forall (fun op : vop unit => match op with OAppend _ => False | _ => True end)
    [OPush tt; OInsert 0 tt; OExtendSlice [tt; tt]; OPop; OShrinkToFit] /\
  @demo_outs env_debug unit zst wz_start [OPush tt; OInsert 0 tt; OExtendSlice [tt; tt]; OPop; OShrinkToFit]
    = [Ret RUnit; Ret RUnit; Ret RUnit; Ret (ROpt (Some tt)); Ret RUnit].
Proof. split; [by repeat constructor|by vm_compute]. Qed.
(** Dropping it releases a pointer that was never allocated. *)
Lemma p_C30_zst_drop_refuted : forall (EN : Env) (T : Type) (EL : Elem T) (w : world T) v w',
  t_size = 0 -> (forall x y : T, x = y) -> no_drop_panic ->
  vec_new w = (Ret v, w') -> fst (vec_drop_val v w') = UB Dangling_access.
Proof.
  intros EN T EL w v w' Hz Hu Hnd Hn. apply (z_drop Hz (fun x => Hu x t_zst)); [done|].
  unfold vec_new, vec_with_marker, alloc_for, bind in Hn. destruct (cur_scope w); [|done].
  by injection Hn as <- _.
Qed.
Lemma x_C30_zst_drop_ex :
  let st := @demo env_debug unit zst wz_start [OPush tt] in
  fst (@vec_drop_val unit zst (fst st) (snd st)) = UB Dangling_access.
Proof. by vm_compute. Qed.

(** * C31 *)

(** Two vectors, the second built after the first (and in whatever way). *)
Lemma p_C31_vec_compare : forall (EN : Env) (T : Type) (EL : Elem T) (w0 : world T) v1 w1 xs v2 w2 ys
    (eqb : T -> T -> bool) (cmp : T -> T -> comparison),
  0 < t_size -> reached_from w0 v1 w1 xs -> reached_from w1 v2 w2 ys ->
  (exists b, vec_eq eqb v1 v2 w2 = (Ret b, w2) /\
     (b = true <-> Forall2 (fun x y => eqb x y = true) xs ys)) /\
  (exists c, vec_cmp cmp v1 v2 w2 = (Ret c, w2) /\ lex cmp xs ys c).
Proof.
  intros EN T EL w0 v1 w1 xs v2 w2 ys eqb cmp Hz H1 H2.
  destruct (reached_frame Hz _ _ _ _ _ _ _ H1 H2) as [Hr1 Hr2]. split.
  - eexists. split; [by apply (vec_eq_ok Hz)|]. apply slice_eq_spec.
  - eexists. split; [by apply (vec_cmp_ok Hz)|]. apply slice_cmp_spec.
Qed.
(** The hasher is fed with the length and then with the elements in order. *)
Lemma p_C31_vec_hash : forall (EN : Env) (T : Type) (EL : Elem T) (H : Type) (hlen : H -> N -> H)
    (hel : H -> T -> H) h v (w : world T) xs,
  0 < t_size -> reached v w xs ->
  vec_hash hlen hel h v w = (Ret (fold_left hel xs (hlen h (llen xs))), w).
Proof.
  intros EN T EL H hlen hel h v w xs Hz Hre. apply (vec_hash_ok Hz). by apply (reached_rep Hz).
Qed.
Lemma x_C31_vec_ex :
  let st1 := @demo env_debug N num_drop w_start [OPush 1; OPush 2] in
  let st2 := @demo env_debug N num_drop (snd st1) [OReserve 10; OPush 1; OPush 3] in
  @reached env_debug N num_drop (fst st1) (snd st1) [1; 2] /\
  fst (@vec_as_slice N num_drop (fst st2) (snd st2)) = Ret [1; 3] /\
  fst (@vec_cmp N num_drop N.compare (fst st1) (fst st2) (snd st2)) = Ret Lt.
Proof.
  split; [by apply demo_reached; [apply w_start_ok|..]; vm_compute|]. by split; vm_compute.
Qed.
