(** Proofs of the statements collected in PropertiesPanic2.v: panicking destructors in compaction,
    iteration and conversions. *)
From Verif Require Export PanicFacts SpecStop.
From Coq Require Import ZifyBool ZifyNat ZifyN.

(** * C111 *)

Section stops.
  Context {EN : Env} {T : Type} {EL : Elem T}.
  Notation stops := (stops_at (@drop_panics T EL)).

  Lemma stops_ret {A} (a : A) : stops (Ret a) [].
  Proof. left. split; [done|]. left. eauto. Qed.
  Lemma stops_user {A} : stops (Panic PUser : res A) [].
  Proof. left. split; [done|]. right. eauto. Qed.
  Lemma stops_here {A} x : t_needs_drop && t_drop_panics x = true -> stops (Panic PDrop : res A) [x].
  Proof.
    intros H. right. split; [done|]. exists [], x. split; [done|]. simpl. unfold drop_panics at 1. by rewrite H.
  Qed.
  Lemma stops_on {A} (o : res A) x ds :
    t_needs_drop && t_drop_panics x = false -> stops o ds -> stops o (x :: ds).
  Proof.
    intros H Hs. fold (drop_panics x) in H. unfold stops_at. simpl. rewrite H.
    destruct Hs as [Hs|(->&ds'&y&->&Hs)]; [by left|]. right. split; [done|]. by exists (x :: ds'), y.
  Qed.
  Hint Resolve stops_ret stops_user stops_here stops_on : core.

  Lemma retain_run_stops {St} (f : St -> T -> St * option bool) xs : forall st o k d,
    retain_run f st xs = (o, k, d) -> stops o d.
  Proof.
    induction xs as [|x xs IH]; intros st o k d; simpl; [intros [= <- <- <-]; auto|].
    destruct (f st x) as [st' [[]|]]; [| |intros [= <- <- <-]; auto].
    - destruct (retain_run f st' xs) as [[o' k'] d'] eqn:E. intros [= <- <- <-]. eauto.
    - destruct (t_needs_drop && t_drop_panics x) eqn:Ep; [intros [= <- <- <-]; auto|].
      destruct (retain_run f st' xs) as [[o' k'] d'] eqn:E. intros [= <- <- <-]. eauto.
  Qed.
  Lemma retain_all_stops {St} (f : St -> T -> St * option bool) xs st o k d :
    retain_all f st xs = (o, k, d) -> stops o d.
  Proof.
    destruct xs as [|x xs]; simpl; [intros [= <- <- <-]; auto|].
    destruct (f st x) as [st' [[]|]]; [| |intros [= <- <- <-]; auto].
    - destruct (retain_run f st' (tail xs)) as [[o' k'] d'] eqn:E. intros [= <- <- <-].
      by eapply retain_run_stops.
    - destruct (t_needs_drop && t_drop_panics x) eqn:Ep; [intros [= <- <- <-]; auto|].
      destruct (retain_run f st' xs) as [[o' k'] d'] eqn:E. intros [= <- <- <-].
      apply stops_on; [done|]. by eapply retain_run_stops.
  Qed.
  Lemma dedup_key_run_stops {St K} (keq : K -> K -> bool) (key : St -> T -> St * T * option K) xs :
    forall st prev o k d, dedup_key_run keq key st prev xs = (o, k, d) -> stops o d.
  Proof.
    induction xs as [|x xs IH]; intros st prev o k d; simpl; [intros [= <- <- <-]; auto|].
    destruct (key st x) as [[st' x'] [kx|]]; [|intros [= <- <- <-]; auto].
    destruct (keq prev kx).
    - destruct (t_needs_drop && t_drop_panics x') eqn:Ep; [intros [= <- <- <-]; auto|].
      destruct (dedup_key_run keq key st' prev xs) as [[o' k'] d'] eqn:E. intros [= <- <- <-]. eauto.
    - destruct (dedup_key_run keq key st' kx xs) as [[o' k'] d'] eqn:E. intros [= <- <- <-]. eauto.
  Qed.
  Lemma dedup_key_all_stops {St K} (keq : K -> K -> bool) (key : St -> T -> St * T * option K) xs st o k d :
    dedup_key_all keq key st xs = (o, k, d) -> stops o d.
  Proof.
    destruct xs as [|x xs]; simpl; [intros [= <- <- <-]; auto|].
    destruct (key st x) as [[st' x'] [kx|]]; [|intros [= <- <- <-]; auto].
    destruct (dedup_key_run keq key st' kx (tail xs)) as [[o' k'] d'] eqn:E. intros [= <- <- <-].
    by eapply dedup_key_run_stops.
  Qed.
  Lemma dedup_run_stops {St} (f : St -> T -> T -> St * (T * T) * option bool) xs : forall st h o k d,
    dedup_run f st h xs = (o, k, d) -> stops o d.
  Proof.
    induction xs as [|x xs IH]; intros st h o k d; simpl; [intros [= <- <- <-]; auto|].
    destruct (f st x h) as [[st' [x' h']] [[]|]]; [| |intros [= <- <- <-]; auto].
    - destruct (t_needs_drop && t_drop_panics x') eqn:Ep; [intros [= <- <- <-]; auto|].
      destruct (dedup_run f st' h' xs) as [[o' k'] d'] eqn:E. intros [= <- <- <-]. eauto.
    - destruct (dedup_run f st' x' xs) as [[o' k'] d'] eqn:E. intros [= <- <- <-]. eauto.
  Qed.
  Lemma dedup_first_stops {St} (f : St -> T -> T -> St * (T * T) * option bool) xs : forall st h o k d,
    dedup_first f st h xs = (o, k, d) -> stops o d.
  Proof.
    induction xs as [|x xs IH]; intros st h o k d; simpl; [intros [= <- <- <-]; auto|].
    destruct (f st x h) as [[st' [x' h']] [[]|]]; [| |intros [= <- <- <-]; auto].
    - destruct (t_needs_drop && t_drop_panics x') eqn:Ep; [intros [= <- <- <-]; auto|].
      destruct (dedup_first f st' h' xs) as [[o' k'] d'] eqn:E. intros [= <- <- <-]. eauto.
    - destruct (dedup_run f st' x' xs) as [[o' k'] d'] eqn:E. intros [= <- <- <-].
      by eapply dedup_run_stops.
  Qed.
  Lemma dedup_all_stops {St} (f : St -> T -> T -> St * (T * T) * option bool) xs st o k d :
    dedup_all f st xs = (o, k, d) -> stops o d.
  Proof. destruct xs as [|x xs]; simpl; [intros [= <- <- <-]; auto|]. apply dedup_first_stops. Qed.
End stops.

(** Whatever the callback and the destructors do: the call ends at the first panic, the contents
    and the destroyed elements are different elements of the old contents, and dropping the vector
    afterwards destroys the contents up to the first culprit. *)
Lemma p_C111_retain : forall (EN : Env) (T : Type) (EL : Elem T) (St : Type)
    (f : St -> T -> St * option bool) st v (w : world T) xs,
  0 < t_size -> reached v w xs ->
  let panics x := t_needs_drop && t_drop_panics x in
  exists o v' w' k d w2, retain f st (v, w) = (o, (v', w')) /\ stops_at panics o d /\
    vec_as_slice v' w' = (Ret k, w') /\ drops w' = drops w ++ d /\ k ++ d ⊆+ xs /\
    vec_drop_val v' w' = (match culprits panics k with [] => Ret tt | _ => Panic PDrop end, w2) /\
    drops w2 = drops w' ++ up_to panics 1 k /\
    (culprits panics k = [] -> heap w2 = delete_ptr (vdata v) (heap w)).
Proof.
  intros EN T EL St f st v w xs Hz Hre. cbv zeta. pose proof (reached_rep Hz _ _ _ Hre) as Hr.
  change (fun x : T => t_needs_drop && t_drop_panics x) with (@drop_panics T EL).
  destruct (vec_retain_ok Hz f st w v xs Hr) as (v'&w'&o&k&d&He&Ha&Hr'&Hk).
  destruct (drop_exact Hz w' v' k Hr') as (w2&Hdr&Hd2&Hg). destruct Hk as (Hk&Hds&_).
  exists o, v', w', k, d, w2. split_and!; try done; [by eapply retain_all_stops|by apply (as_slice_ok Hz)| |].
  - by eapply retain_all_sub.
  - intros E. rewrite E in Hg. unfold vrest in *. congruence.
Qed.
Lemma x_C111_retain_ex :
  @reached env_debug N num_bomb (fst bomb_st) (snd bomb_st) bombs /\
  fst (@retain env_debug N vec (@vec_vecx env_debug N num_bomb) unit (fun _ x => (tt, Some (x <? 10))) tt bomb_st)
    = Ret tt /\
  fst (@retain env_debug N vec (@vec_vecx env_debug N num_bomb) unit (fun _ x => (tt, Some false)) tt bomb_st)
    = Panic PDrop /\
  drops (snd (snd (@retain env_debug N vec (@vec_vecx env_debug N num_bomb) unit (fun _ x => (tt, Some false)) tt bomb_st)))
    = [5; 13].
Proof. split; [apply x_C28_ex|]. by split_and!; vm_compute. Qed.
Lemma p_C111_dedup_by : forall (EN : Env) (T : Type) (EL : Elem T) (St : Type)
    (f : St -> T -> T -> St * option bool) st v (w : world T) xs,
  0 < t_size -> reached v w xs ->
  let panics x := t_needs_drop && t_drop_panics x in
  exists o v' w' k d w2,
    dedup_by (fun st a b => (fst (f st a b), (a, b), snd (f st a b))) st (v, w) = (o, (v', w')) /\
    stops_at panics o d /\
    vec_as_slice v' w' = (Ret k, w') /\ drops w' = drops w ++ d /\ k ++ d ⊆+ xs /\
    vec_drop_val v' w' = (match culprits panics k with [] => Ret tt | _ => Panic PDrop end, w2) /\
    drops w2 = drops w' ++ up_to panics 1 k /\
    (culprits panics k = [] -> heap w2 = delete_ptr (vdata v) (heap w)).
Proof.
  intros EN T EL St f st v w xs Hz Hre. cbv zeta. pose proof (reached_rep Hz _ _ _ Hre) as Hr.
  change (fun x : T => t_needs_drop && t_drop_panics x) with (@drop_panics T EL).
  destruct (vec_dedup_by_ok Hz (fun st a b => (fst (f st a b), (a, b), snd (f st a b))) st w v xs Hr)
    as (v'&w'&o&k&d&He&Ha&Hr'&Hk).
  destruct (drop_exact Hz w' v' k Hr') as (w2&Hdr&Hd2&Hg). destruct Hk as (Hk&Hds&_).
  exists o, v', w', k, d, w2. split_and!; try done; [by eapply dedup_all_stops|by apply (as_slice_ok Hz)| |].
  - by eapply dedup_all_sub.
  - intros E. rewrite E in Hg. unfold vrest in *. congruence.
Qed.
Lemma p_C111_dedup_by_key : forall (EN : Env) (T : Type) (EL : Elem T) (St K : Type)
    (keq : K -> K -> bool) (key : St -> T -> St * option K) st v (w : world T) xs,
  0 < t_size -> reached v w xs ->
  let panics x := t_needs_drop && t_drop_panics x in
  exists o v' w' k d w2,
    dedup_by_key keq (fun st x => (fst (key st x), x, snd (key st x))) st (v, w) = (o, (v', w')) /\
    stops_at panics o d /\
    vec_as_slice v' w' = (Ret k, w') /\ drops w' = drops w ++ d /\ k ++ d ⊆+ xs /\
    vec_drop_val v' w' = (match culprits panics k with [] => Ret tt | _ => Panic PDrop end, w2) /\
    drops w2 = drops w' ++ up_to panics 1 k /\
    (culprits panics k = [] -> heap w2 = delete_ptr (vdata v) (heap w)).
Proof.
  intros EN T EL St K keq key st v w xs Hz Hre. cbv zeta. pose proof (reached_rep Hz _ _ _ Hre) as Hr.
  change (fun x : T => t_needs_drop && t_drop_panics x) with (@drop_panics T EL).
  destruct (vec_dedup_by_key_ok Hz keq (fun st x => (fst (key st x), x, snd (key st x))) st w v xs Hr)
    as (v'&w'&o&k&d&He&Ha&Hr'&Hk).
  destruct (drop_exact Hz w' v' k Hr') as (w2&Hdr&Hd2&Hg). destruct Hk as (Hk&Hds&_).
  exists o, v', w', k, d, w2. split_and!; try done; [by eapply dedup_key_all_stops|by apply (as_slice_ok Hz)| |].
  - by eapply dedup_key_all_sub.
  - intros E. rewrite E in Hg. unfold vrest in *. congruence.
Qed.
Lemma x_C111_dedup_ex :
  let st := @demo env_debug N num_bomb w_start (OPush <$> [5; 6; 7; 13; 13; 8]) in
  @reached env_debug N num_bomb (fst st) (snd st) [5; 6; 7; 13; 13; 8] /\
  fst (@dedup_by env_debug N vec (@vec_vecx env_debug N num_bomb) unit (fun st a b => (st, (a, b), Some (a =? b))) tt st)
    = Panic PDrop /\
  fst (@dedup_by_key env_debug N vec (@vec_vecx env_debug N num_bomb) unit N N.eqb (fun st a => (st, a, if a =? 13 then None else Some a)) tt st)
    = Panic PUser.
Proof. cbv zeta. split; [by apply demo_reached; [apply w_start_ok|..]; vm_compute|]. by split; vm_compute. Qed.

(** The same for [SmallVec], inline or spilled. *)
Lemma p_C111_small : forall (EN : Env) (T : Type) (EL : Elem T) (St K : Type) (Cap : N)
    (f : St -> T -> St * option bool) (g : St -> T -> T -> St * option bool)
    (keq : K -> K -> bool) (key : St -> T -> St * option K) st s (w : world T) xs m,
  0 < t_size -> sreached Cap s w xs ->
  In m [sv_retain Cap f st;
        sv_dedup_by Cap (fun st a b => (fst (g st a b), (a, b), snd (g st a b))) st;
        sv_dedup_by_key Cap keq (fun st x => (fst (key st x), x, snd (key st x))) st] ->
  let panics x := t_needs_drop && t_drop_panics x in
  exists o s' w' k d w2, m (s, w) = (o, (s', w')) /\ stops_at panics o d /\
    sv_slice s' w' = (Ret k, w') /\ drops w' = drops w ++ d /\ k ++ d ⊆+ xs /\
    sv_drop_val s' w' = (match culprits panics k with [] => Ret tt | _ => Panic PDrop end, w2) /\
    drops w2 = drops w' ++ up_to panics 1 k /\
    (culprits panics k = [] -> heap w2 = srest s w).
Proof.
  intros EN T EL St K Cap f g keq key st s w xs m Hz Hre Hm. cbv zeta.
  change (fun x : T => t_needs_drop && t_drop_panics x) with (@drop_panics T EL).
  destruct (sreached_srep Cap Hz _ _ _ Hre) as [Hr HC].
  assert (exists s' w' o k d, m (s, w) = (o, (s', w')) /\ srep Cap w' s' k /\ skeeps s w s' w' d /\
    stops_at drop_panics o d /\ k ++ d ⊆+ xs) as (s'&w'&o&k&d&He&Hr'&(Hk&Hds&_)&Hst&Hsub).
  { destruct Hm as [<-|[<-|[<-|[]]]].
    - destruct (retain_sok Hz Cap HC f st w s xs Hr) as (s'&w'&o&k&d&He&Ha&Hr'&Hk).
      exists s', w', o, k, d. split_and!; try done; [by eapply retain_all_stops|by eapply retain_all_sub].
    - destruct (dedup_by_sok Hz Cap HC (fun st a b => (fst (g st a b), (a, b), snd (g st a b))) st w s xs Hr)
        as (s'&w'&o&k&d&He&Ha&Hr'&Hk).
      exists s', w', o, k, d. split_and!; try done; [by eapply dedup_all_stops|by eapply dedup_all_sub].
    - destruct (dedup_by_key_sok Hz Cap HC keq (fun st x => (fst (key st x), x, snd (key st x))) st w s xs Hr)
        as (s'&w'&o&k&d&He&Ha&Hr'&Hk).
      exists s', w', o, k, d. split_and!; try done; [by eapply dedup_key_all_stops|by eapply dedup_key_all_sub]. }
  destruct (drop_val_exact_s Hz Cap w' s' k Hr') as (w2&Hdr&Hd2&Hg).
  exists o, s', w', k, d, w2. split_and!; try done; [by apply (slice_sok Cap Hz)|].
  intros E. rewrite E in Hg. congruence.
Qed.
Lemma x_C111_small_ex :
  let st := @sdemo env_debug N num_bomb 4 w_start (SPush <$> bombs) in
  @sreached env_debug N num_bomb 4 (fst st) (snd st) bombs /\ is_stack (fst st) = true /\
  fst (@sv_retain env_debug N num_bomb 4 unit (fun _ x => (tt, Some false)) tt st) = Panic PDrop.
Proof. cbv zeta. split; [by apply sdemo_reached; [apply w_start_ok|..]; vm_compute|]. by split; vm_compute. Qed.

Lemma it_drop_gen {EN : Env} {T} {EL : Elem T} (Hz : 0 < t_size) (w : world T) i ys xs :
  it_rep w i ys xs ->
  exists i' w', it_drop (i, w) = (match culprits drop_panics xs with [] => Ret tt | _ => Panic PDrop end, (i', w')) /\
    gone (it_vec i) w w' (up_to drop_panics 1 xs).
Proof.
  intros [Hi Hr]. unfold it_drop.
  pose proof (rep_cap Hz _ _ _ Hr) as [Hc Hf]. pose proof (fits_bound Hz _ Hf).
  pose proof Hr as [Hl [rest Ho]]. set (ds := up_to drop_panics 1 xs).
  assert (it_drop_body (i, w) = (match culprits drop_panics xs with [] => Ret tt | _ => Panic PDrop end,
            (IntoIter (Vec (v_ptr (it_vec i)) 0) (it_index i), add_drops ds w))) as Hbody.
  { unfold it_drop_body. rewrite bind_get_fst.
    erewrite bind_Ret.
    2: { unfold on_it_vec. simpl. erewrite (vec_set_len_eq Hz _ _ _ 0 Ho) by lia. reflexivity. }
    rewrite Hl, Hi, app_length. rewrite bind_usub by lia.
    replace (N.of_nat (length ys + length xs) - llen ys) with (llen xs) by lia.
    destruct (N.ltb_spec isize_max (llen xs * t_size)) as [Hbig|_].
    { rewrite app_length in Hc. unfold fits, limit in Hf. pose proof t_align_pos.
      exfalso. assert (llen xs * t_size <= vcap (it_vec i) * t_size) by nia.
      unfold isize_max in *. lia. }
    rewrite Nat2N.id. apply on_snd_Ret.
    destruct (decide (xs = [])) as [->|Hne]; [done|].
    destruct (drop_range_rep Hz w (it_vec i) (ys ++ xs) rest (llen ys) xs Ho) as [Ht Hsa]; [|done|].
    { rewrite Nat2N.id. apply drop_app. }
    erewrite drop_loop_slots by done. by rewrite drops_until_up_to. }
  assert (rep (add_drops ds w) (Vec (v_ptr (it_vec i)) 0) []) as Hr0.
  { split; [done|]. eexists. simpl. apply (owns_drops w (it_vec i) _ ds). exact Ho. }
  destruct (vec_drop_quiet Hz _ _ _ Hr0 eq_refl) as (w'&Hdr&Hg).
  assert (forall j, on_it_vec vec_drop (IntoIter (Vec (v_ptr (it_vec i)) 0) j, add_drops ds w)
    = (Ret tt, (IntoIter (Vec (v_ptr (it_vec i)) 0) j, w'))) as Hdv.
  { intros j. unfold on_it_vec. simpl. by rewrite Hdr. }
  eexists _, w'. split.
  - unfold finally. destruct (culprits drop_panics xs).
    + erewrite bind_Ret by (apply on_unwind_Ret; exact Hbody).
      erewrite bind_Ret; [reflexivity|]. apply Hdv.
    + erewrite bind_Panic; [reflexivity|]. unfold on_unwind. rewrite Hbody, Hdv. reflexivity.
  - rewrite <-(app_nil_r ds). eapply (keeps_gone Hz); [|exact Hg]. exact (keeps_drops (it_vec i) w ds).
Qed.

(** Dropping a partly used iterator destroys what is left up to the first culprit; the memory is
    given back in any case. *)
Lemma p_C111_into_iter : forall (EN : Env) (T : Type) (EL : Elem T) v (w : world T) xs cs,
  0 < t_size -> reached v w xs -> deque_ok cs xs ->
  let panics x := t_needs_drop && t_drop_panics x in
  exists i i' w',
    it_run cs (vec_into_iter v, w) = (Ret <$> fst (deque cs xs), (i, w)) /\
    it_drop (i, w) = (match culprits panics (snd (deque cs xs)) with [] => Ret tt | _ => Panic PDrop end, (i', w')) /\
    drops w' = drops w ++ up_to panics 1 (snd (deque cs xs)) /\ heap w' = delete_ptr (vdata v) (heap w).
Proof.
  intros EN T EL v w xs cs Hz Hre Hok. cbv zeta. pose proof (reached_rep Hz _ _ _ Hre) as Hr.
  change (fun x : T => t_needs_drop && t_drop_panics x) with (@drop_panics T EL).
  destruct (it_run_ok Hz cs _ _ _ _ (into_iter_rep _ _ _ Hr) Hok) as (i&ys&He&Hi&Hv).
  destruct (it_drop_gen Hz w i ys _ Hi) as (i'&w'&Hd&Hh&Hds&_).
  exists i, i', w'. split_and!; try done. rewrite Hh. unfold vrest. by rewrite Hv.
Qed.
Lemma x_C111_into_iter_ex :
  @reached env_debug N num_bomb (fst bomb_st) (snd bomb_st) bombs /\ deque_ok [false] bombs /\
  culprits (@t_drop_panics N num_bomb) (snd (deque [false] bombs)) = [13] /\
  up_to (@t_drop_panics N num_bomb) 1 (snd (deque [false] bombs)) = [5; 13].
Proof. split; [apply x_C28_ex|]. by split_and!; vm_compute. Qed.

(** * C112 *)

Lemma with_local_settle_v {EN : Env} {T} {EL : Elem T} (Hz : 0 < t_size) {A} v (m : M (vec * world T) A) (w : world T) p d v' w1 xs :
  m (v, w) = (settle drop_panics (Panic p) d, (v', w1)) -> rep w1 v' xs ->
  exists w2, with_local v m vec_drop w = (settle drop_panics (Panic p) (d ++ xs), w2) /\
    (culprits drop_panics (d ++ xs) = [] -> gone v' w1 w2 xs).
Proof.
  intros Hm Hr. unfold with_local, on_unwind. rewrite Hm, !settle_panic, culprits_app.
  destruct (culprits drop_panics d) as [|c l] eqn:Ed; [|by eexists].
  destruct (culprits drop_panics xs) as [|c l] eqn:Ex; simpl.
  - destruct (vec_drop_quiet Hz w1 v' xs Hr Ex) as (w2&He&Hg). rewrite He. by exists w2.
  - destruct (drop_exact Hz w1 v' xs Hr) as (w2&He&_). rewrite Ex in He. unfold vec_drop_val in He.
    destruct (vec_drop (v', w1)) as [r [v2 w3]]. injection He as -> ->. by exists w2.
Qed.

(** Building a vector, whatever the destructors do: when it cannot be built, what was collected is
    destroyed; a culprit among that ends the process. *)
Lemma p_C112_from_array : forall (EN : Env) (T : Type) (EL : Elem T) (w : world T) l,
  0 < t_size -> wok w -> llen l * t_size <= isize_max + 1 - t_align ->
  let panics x := t_needs_drop && t_drop_panics x in
  exists r w', vec_from_array l w = (r, w') /\
    ((exists v, r = Ret v /\ vec_as_slice v w' = (Ret l, w') /\ vcap v = llen l /\
        delete_ptr (vdata v) (heap w') = heap w /\ drops w' = drops w) \/
     (r = settle panics (Panic PUnwrap) l /\ refuses /\
        (r <> Abort -> heap w' = heap w /\ drops w' = drops w ++ l))).
Proof.
  intros EN T EL w l Hz Hw Hf. cbv zeta.
  change (fun x : T => t_needs_drop && t_drop_panics x) with (@drop_panics T EL).
  destruct (from_array_gen Hz w l Hw Hf) as (r&w'&He&[(v&->&Hr&(Hh&Hd&_)&Hc)|(->&Hs&?)]);
    eexists _, w'; (split; [done|]).
  - left. exists v. rewrite app_nil_r in Hd. split_and!; try done. by apply (as_slice_ok Hz).
  - right. split_and!; try done. intros Hna. by destruct (Hs Hna) as (?&?&_).
Qed.
Lemma p_C112_from_iter : forall (EN : Env) (T : Type) (EL : Elem T) (w : world T) it hint,
  0 < t_size -> wok w -> N.max (llen it) hint * t_size <= isize_max + 1 - t_align ->
  let panics x := t_needs_drop && t_drop_panics x in
  exists r w', vec_from_iter it hint w = (r, w') /\
    ((exists v ys, r = Ret v /\ it = Some <$> ys /\ vec_as_slice v w' = (Ret ys, w') /\
        delete_ptr (vdata v) (heap w') = heap w /\ drops w' = drops w) \/
     (exists p ds, r = settle panics (Panic p) ds /\ (r <> Abort -> heap w' = heap w /\ drops w' = drops w ++ ds) /\
        ((p = PUser /\ exists it', it = (Some <$> ds) ++ None :: it') \/
         (p = PUnwrap /\ refuses /\ ds = []) \/
         (p = PUnwrap /\ refuses /\ hint < llen it /\
            exists ys y it', it = (Some <$> ys) ++ Some y :: it' /\ ds = y :: ys)))).
Proof.
  intros EN T EL w it hint Hz Hw Hf. cbv zeta.
  change (fun x : T => t_needs_drop && t_drop_panics x) with (@drop_panics T EL). unfold vec_from_iter.
  destruct (with_capacity_ok Hz w hint Hw) as (r&w1&Hm&Hd&Hc&Hn&Hw1&Hcase).
  { eapply (fits_le Hz); [|exact Hf]. lia. }
  destruct Hcase as [(v1&->&Hr1&Hh&Hcap)|(->&Hh&Href)]; cycle 1.
  { erewrite bind_Panic by exact Hm. eexists _, _. split; [reflexivity|]. right.
    exists PUnwrap, []. rewrite settle_nil, app_nil_r. split_and!; [done|done|]. auto. }
  erewrite bind_Ret by exact Hm.
  assert (born w v1 w1 []) as Hb1 by (unfold born; rewrite app_nil_r; done).
  destruct (push_all_ok Hz it w1 v1 [] Hr1) as (r&v2&w2&ys&ds&Hm2&Hr2&Hk2&_&_&Hcase).
  { eapply (fits_le Hz); [|exact Hf]. simpl. lia. }
  simpl in Hr2. pose proof (born_keeps Hz _ _ _ _ _ _ _ Hb1 Hk2 (rep_wok _ _ _ Hr2)) as Hb2. simpl in Hb2.
  assert (forall p d, r = settle drop_panics (Panic p) d -> ds = d ->
    exists w3, with_local v1 (vec_push_all it) vec_drop w1 = (settle drop_panics (Panic p) (d ++ ys), w3) /\
      (settle drop_panics (Panic p) (d ++ ys) <> (Abort : res vec) -> heap w3 = heap w /\ drops w3 = drops w ++ d ++ ys))
    as Hcl.
  { intros p d -> ->. destruct (with_local_settle_v Hz _ _ _ _ _ _ _ _ Hm2 Hr2) as (w3&He&Hg).
    exists w3. split; [done|]. rewrite settle_panic. intros Hna.
    destruct (culprits drop_panics (d ++ ys)) eqn:E; [|done].
    pose proof (born_gone Hz _ _ _ _ _ _ Hb2 (Hg eq_refl)) as (?&?&_). done. }
  destruct Hcase as [(->&->&->)|[(->&[it' ->]&->)|(y&it'&Hrr&->&->&?&Hlt)]].
  - erewrite bind_Ret by (eapply with_local_Ret; exact Hm2).
    eexists _, _. split; [reflexivity|]. left. destruct Hb2 as (Hb2&Hb3&_). rewrite app_nil_r in Hb3.
    eexists _, _. split_and!; try done. by apply (as_slice_ok Hz).
  - destruct (Hcl PUser []) as (w3&He&Hg); [by rewrite settle_nil|done|].
    erewrite bind_settle_panic by exact He.
    eexists _, _. split; [reflexivity|]. right. exists PUser, ys. split_and!; eauto.
  - destruct (Hcl PUnwrap [y]) as (w3&He&Hg); [by rewrite Hrr, settle_unwound|done|].
    erewrite bind_settle_panic by exact He.
    eexists _, _. split; [reflexivity|]. right. exists PUnwrap, (y :: ys). split_and!; [done|done|].
    right. right. split_and!; try done; [|eauto]. rewrite Hcap in Hlt. simpl in Hlt. lia.
Qed.
Lemma x_C112_from_iter_ex :
  wok w_start /\
  (exists v, fst (@vec_from_iter env_debug N num_bomb [Some 5; Some 13] 0 w_start) = Ret v) /\
  fst (@vec_from_iter env_debug N num_bomb [Some 5; None] 0 w_start) = Panic PUser /\
  fst (@vec_from_iter env_debug N num_bomb [Some 5; Some 13; None] 0 w_start) = Abort /\
  fst (@vec_from_array (env_refusing 0) N num_bomb [5; 13] w_start) = Abort.
Proof. split; [apply w_start_ok|]. split; [eexists; vm_compute; reflexivity|]. by split_and!; vm_compute. Qed.
Lemma p_C112_clone : forall (EN : Env) (T : Type) (EL : Elem T) v (w : world T) xs,
  0 < t_size -> reached v w xs ->
  let panics x := t_needs_drop && t_drop_panics x in
  exists r w', vec_clone v w = (r, w') /\
    ((exists v' ys, r = Ret v' /\ Forall2 (fun x y => t_clone x = Some y) xs ys /\
        vec_as_slice v' w' = (Ret ys, w') /\
        delete_ptr (vdata v') (heap w') = heap w /\ drops w' = drops w) \/
     (exists l1 x l2 ys, r = settle panics (Panic PUser) ys /\ xs = l1 ++ x :: l2 /\ t_clone x = None /\
        Forall2 (fun x y => t_clone x = Some y) l1 ys /\
        (r <> Abort -> heap w' = heap w /\ drops w' = drops w ++ ys)) \/
     (r = Panic PUnwrap /\ refuses /\ heap w' = heap w /\ drops w' = drops w)).
Proof.
  intros EN T EL v w xs Hz Hre. cbv zeta. pose proof (reached_rep Hz _ _ _ Hre) as Hr.
  change (fun x : T => t_needs_drop && t_drop_panics x) with (@drop_panics T EL).
  unfold vec_clone. erewrite bind_Ret by (by apply (as_slice_ok Hz)).
  destruct (new_born Hz w (rep_wok _ _ _ Hr)) as (n&w1&Hn&Hr1&Hb1&_).
  erewrite bind_Ret by exact Hn.
  destruct (extend_from_slice_ok Hz xs w1 n [] Hr1) as (r&v2&w2&ys&Hm2&Hr2&Hk2&_&_&Hcase).
  { rewrite N.add_0_l. destruct (rep_cap Hz _ _ _ Hr) as [? Hfc]. by eapply (fits_le Hz); [|exact Hfc]. }
  simpl in Hr2. pose proof (born_keeps Hz _ _ _ _ _ _ _ Hb1 Hk2 (rep_wok _ _ _ Hr2)) as Hb2. simpl in Hb2.
  assert (forall p, r = Panic p ->
    exists w3, with_local n (vec_extend_from_slice xs) vec_drop w1 = (settle drop_panics (Panic p) ys, w3) /\
      (settle drop_panics (Panic p) ys <> (Abort : res vec) -> heap w3 = heap w /\ drops w3 = drops w ++ ys)) as Hcl.
  { intros p ->. rewrite <-(settle_nil (Panic p)) in Hm2.
    destruct (with_local_settle_v Hz _ _ _ _ _ _ _ _ Hm2 Hr2) as (w3&He&Hg).
    exists w3. split; [done|]. rewrite settle_panic. intros Hna. simpl in Hg.
    destruct (culprits drop_panics ys) eqn:E; [|done].
    pose proof (born_gone Hz _ _ _ _ _ _ Hb2 (Hg eq_refl)) as (?&?&_). done. }
  destruct Hcase as [(->&?)|[(->&l1&x&l2&->&?&?)|(->&->&->&?)]].
  - erewrite bind_Ret by (eapply with_local_Ret; exact Hm2).
    eexists _, _. split; [reflexivity|]. left. destruct Hb2 as (Hb2&Hb3&_). rewrite app_nil_r in Hb3.
    eexists _, _. split_and!; try done; [by apply mapM_Some|by apply (as_slice_ok Hz)].
  - destruct (Hcl PUser eq_refl) as (w3&He&Hg). erewrite bind_settle_panic by exact He.
    eexists _, _. split; [reflexivity|]. right. left. exists l1, x, l2, ys. split_and!; try done. by apply mapM_Some.
  - destruct (Hcl PUnwrap eq_refl) as (w3&He&Hg). rewrite settle_nil in *. erewrite bind_Panic by exact He.
    eexists _, _. split; [reflexivity|]. right. right. destruct Hg as [Hg1 Hg2]; [done|].
    rewrite app_nil_r in Hg2. done.
Qed.
Lemma x_C112_clone_ex :
  @reached env_debug N num_bomb (fst bomb_st) (snd bomb_st) bombs /\
  fst (@vec_clone env_debug N num_bomb (fst bomb_st) (snd bomb_st)) = Panic PUser /\
  drops (snd (@vec_clone env_debug N num_bomb (fst bomb_st) (snd bomb_st))) = [5].
Proof. split; [apply x_C28_ex|]. by split; vm_compute. Qed.

(** The same for [SmallVec].  ([clone] is [from] of the slice.) *)
Lemma p_C112_small_from_iter : forall (EN : Env) (T : Type) (EL : Elem T) (Cap : N) (w : world T) it hint,
  0 < t_size -> wok w -> Cap * t_size <= isize_max + 1 - t_align ->
  (N.max (llen it) hint + 8) * t_size <= isize_max + 1 - t_align ->
  let panics x := t_needs_drop && t_drop_panics x in
  exists r w', sv_from_iter Cap it hint w = (r, w') /\
    ((exists s ys, r = Ret s /\ it = Some <$> ys /\ sv_slice s w' = (Ret ys, w') /\
        srest s w' = heap w /\ drops w' = drops w) \/
     (exists p ds, r = settle panics (Panic p) ds /\ (r <> Abort -> heap w' = heap w /\ drops w' = drops w ++ ds) /\
        ((p = PUser /\ exists it', it = (Some <$> ds) ++ None :: it') \/
         (p = PUnwrap /\ refuses /\ ds = []) \/
         (p = PUnwrap /\ refuses /\ exists ys y it', it = (Some <$> ys) ++ Some y :: it' /\ ds = y :: ys)))).
Proof.
  intros EN T EL Cap w it hint Hz Hw HC Hf. cbv zeta.
  change (fun x : T => t_needs_drop && t_drop_panics x) with (@drop_panics T EL).
  destruct (from_iter_gen Hz Cap HC it hint w Hw Hf) as (r&w'&ys&ds&He&Hcase). exists r, w'. split; [done|].
  destruct Hcase as [(s&->&Hr&Hb&->&_)|[(->&(it'&->)&->&Hs)|[(->&->&->&?&Hs)|(y&it'&->&->&->&?&Hs)]]].
  - left. exists s, ys. destruct Hb as (Hb1&Hb2&_). rewrite app_nil_r in Hb2.
    split_and!; try done. by apply (slice_sok Cap Hz).
  - right. exists PUser, ys. split; [done|]. split; [|by eauto].
    rewrite settle_panic. intros Hna. destruct (culprits drop_panics ys); [|done].
    by destruct (Hs eq_refl) as (?&?&_).
  - right. exists PUnwrap, []. rewrite settle_nil. split; [done|]. split; [|by auto]. by destruct Hs as (?&?&_).
  - right. exists PUnwrap, (y :: ys). split; [done|]. split; [|by eauto 10].
    rewrite settle_panic. intros Hna. destruct (culprits drop_panics (y :: ys)); [|done].
    by destruct (Hs eq_refl) as (?&?&_).
Qed.
Lemma p_C112_small_from_slice : forall (EN : Env) (T : Type) (EL : Elem T) (Cap : N) (w : world T) l,
  0 < t_size -> wok w -> Cap * t_size <= isize_max + 1 - t_align ->
  (llen l + 8) * t_size <= isize_max + 1 - t_align ->
  let panics x := t_needs_drop && t_drop_panics x in
  exists r w', sv_from_slice Cap l w = (r, w') /\
    ((exists s ys, r = Ret s /\ Forall2 (fun x y => t_clone x = Some y) l ys /\
        sv_slice s w' = (Ret ys, w') /\ srest s w' = heap w /\ drops w' = drops w) \/
     (exists p ds l1 ys, r = settle panics (Panic p) ds /\
        (r <> Abort -> heap w' = heap w /\ drops w' = drops w ++ ds) /\
        Forall2 (fun x y => t_clone x = Some y) l1 ys /\
        ((p = PUser /\ ds = ys /\ exists x l2, l = l1 ++ x :: l2 /\ t_clone x = None) \/
         (p = PUnwrap /\ refuses /\ ds = [] /\ ys = []) \/
         (p = PUnwrap /\ refuses /\ exists x y l2, l = l1 ++ x :: l2 /\ t_clone x = Some y /\ ds = y :: ys)))).
Proof.
  intros EN T EL Cap w l Hz Hw HC Hf. cbv zeta.
  change (fun x : T => t_needs_drop && t_drop_panics x) with (@drop_panics T EL). unfold sv_from_slice.
  destruct (with_capacity_sok Hz Cap w (llen l) Hw) as (r&w1&He&Hcase).
  { eapply (fits_le Hz); [|exact Hf]. lia. }
  destruct Hcase as [(s&->&Hr&Hb&Hc&Hh)|(->&Hst&Hrf)].
  2: { eexists _, _. split; [by erewrite bind_Panic by exact He|]. right. exists PUnwrap, [], [], [].
       rewrite settle_nil. destruct Hst as (?&?&_). split; [done|]. split; [done|]. split; [constructor|].
       right. left. done. }
  erewrite bind_Ret by exact He.
  destruct (extend_slice_sok Hz Cap HC l w1 s [] Hr) as (r&s'&w'&ys&ds&He'&Hr'&Hk&_&Hcase); [simpl; done|].
  simpl in Hr'. pose proof (sborn_keeps Hz _ _ _ _ _ _ _ Hb Hk (proj1 Hr')) as Hb'. simpl in Hb'.
  assert (forall p, r = settle drop_panics (Panic p) ds -> exists w2,
    with_local s (sv_extend_from_slice Cap l) sv_drop w1 = (settle drop_panics (Panic p) (ds ++ ys), w2) /\
    (settle drop_panics (Panic p) (ds ++ ys) <> (Abort : res (svec T)) ->
     heap w2 = heap w /\ drops w2 = drops w ++ ds ++ ys)) as Hp.
  { intros p ->. destruct (with_local_settle Hz Cap _ _ _ _ _ _ _ _ He' Hr') as (w2&Hd&Hg). exists w2.
    split; [done|]. rewrite settle_panic. intros Hna. destruct (culprits drop_panics (ds ++ ys)); [|done].
    pose proof (sborn_gone Hz _ _ _ _ _ _ Hb' (Hg eq_refl)) as (?&?&_). done. }
  destruct Hcase as [(->&Hm&->)|[(->&(l1&x&l2&Hl&Hm&Hx)&->)|[(->&->&->&Hrf)|(l1&x&l2&y&Hl&Hm&Hx&->&->&Hrf)]]].
  - eexists _, _. split.
    { erewrite bind_Ret by (eapply with_local_Ret_s; exact He'). reflexivity. }
    left. exists s', ys. destruct Hb' as (Hb1&Hb2&_). rewrite app_nil_r in Hb2.
    split_and!; try done; [by apply mapM_Some|by apply (slice_sok Cap Hz)].
  - destruct (Hp PUser) as (w2&Hw2&Hs2); [by rewrite settle_nil|]. erewrite bind_settle_panic by exact Hw2.
    eexists _, _. split; [reflexivity|]. right. exists PUser, ys, l1, ys. split; [done|]. split; [done|].
    split; [by apply mapM_Some|]. left. eauto 10.
  - destruct (Hp PUnwrap) as (w2&Hw2&Hs2); [by rewrite settle_nil|]. erewrite bind_settle_panic by exact Hw2.
    eexists _, _. split; [reflexivity|]. right. exists PUnwrap, [], [], []. split; [done|]. split; [done|].
    split; [constructor|]. right. left. done.
  - destruct (Hp PUnwrap) as (w2&Hw2&Hs2); [by rewrite settle_unwound|]. erewrite bind_settle_panic by exact Hw2.
    eexists _, _. split; [reflexivity|]. right. exists PUnwrap, (y :: ys), l1, ys. split_and!; try done.
    { by apply mapM_Some. }
    right. right. split_and!; try done. by exists x, y, l2.
Qed.
Lemma x_C112_small_ex :
  wok w_start /\
  (exists s, fst (@sv_from_iter env_debug N num_bomb 2 [Some 5; Some 13; Some 6] 0 w_start) = Ret s) /\
  fst (@sv_from_iter env_debug N num_bomb 2 [Some 5; None] 0 w_start) = Panic PUser /\
  fst (@sv_from_iter env_debug N num_bomb 2 [Some 13; None] 0 w_start) = Abort /\
  fst (@sv_from_slice env_debug N num_bomb 2 [5; 13] w_start) = Panic PUser /\
  drops (snd (@sv_from_slice env_debug N num_bomb 2 [5; 13] w_start)) = [5].
Proof. split; [apply w_start_ok|]. split; [eexists; vm_compute; reflexivity|]. by split_and!; vm_compute. Qed.
