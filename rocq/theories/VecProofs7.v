(** Compaction against the list specifications, iterator interleavings, panicking destructors and
    callbacks, comparisons, drain. *)
From Verif Require Export VecProofs6 SpecSeq.
From Coq Require Import ZifyBool ZifyNat ZifyN.

Section compact.
  Context {EN : Env} {T : Type} {EL : Elem T} (Hz : 0 < t_size).
  Notation W := (world T).
  Notation MV := (M (vec * W)).
  Implicit Types (w : W) (v : vec) (xs : list T).

  (** A predicate that never panics. *)
  Definition calm {St} (f : St -> T -> St * bool) : St -> T -> St * option bool :=
    fun st x => let '(st', b) := f st x in (st', Some b).

  Lemma retain_run_retained {St} (f : St -> T -> St * bool) xs : forall st,
    no_drop_panic ->
    retain_run (calm f) st xs =
      (Ret (fst (fst (retained f st xs))), snd (fst (retained f st xs)), snd (retained f st xs)).
  Proof.
    induction xs as [|x xs IH]; intros st Hn; simpl; [done|]. unfold calm at 1.
    destruct (f st x) as [st' b]. rewrite Hn, andb_false_r, IH by done.
    destruct (retained f st' xs) as [[st'' k] d]. by destruct b.
  Qed.

  (** What [retain] really filters: when the first element is accepted, the second is skipped. *)
  Definition retain_input {St} (f : St -> T -> St * bool) (st : St) xs : list T :=
    match xs with
    | x :: _ => if snd (f st x) then without_second xs else xs
    | [] => []
    end.

  Lemma retain_all_retained {St} (f : St -> T -> St * bool) st xs :
    no_drop_panic ->
    retain_all (calm f) st xs =
      let '(st', k, d) := retained f st (retain_input f st xs) in (Ret st', k, d).
  Proof.
    intros Hn. destruct xs as [|x R]; [done|]. simpl. unfold calm at 1.
    destruct (f st x) as [st' b] eqn:Ef. simpl. rewrite Hn, andb_false_r. destruct b.
    - rewrite retain_run_retained by done. destruct R as [|y R]; simpl; rewrite Ef; simpl.
      + done.
      + destruct (retained f st' R) as [[??]?]. done.
    - rewrite retain_run_retained by done. simpl. rewrite Ef.
      destruct (retained f st' R) as [[??]?]. done.
  Qed.

  Lemma retain_calm {St} (f : St -> T -> St * bool) st w v xs :
    rep w v xs -> no_drop_panic ->
    exists v' w' st' k d, retain (calm f) st (v, w) = (Ret st', (v', w')) /\
      retained f st (retain_input f st xs) = (st', k, d) /\ rep w' v' k /\ keeps v w v' w' d.
  Proof.
    intros Hr Hn. destruct (vec_retain_ok Hz (calm f) st w v xs Hr) as (v'&w'&o&k&d&He&Ha&Hr'&Hk).
    rewrite retain_all_retained in Ha by done.
    destruct (retained f st (retain_input f st xs)) as [[st' k'] d'] eqn:E.
    injection Ha as <- <- <-. exists v', w', st', k', d'. done.
  Qed.

  (** ** dedup *)
  Fixpoint dd (same : T -> T -> bool) (h : T) xs : list T * list T :=
    match xs with
    | [] => ([], [])
    | x :: xs => if same h x then (fst (dd same h xs), x :: snd (dd same h xs))
                 else (x :: fst (dd same x xs), snd (dd same x xs))
    end.

  Lemma dd_runs same xs : forall h,
    exists r xs' ks ds, xs = r ++ xs' /\ Forall (fun y => same h y = true) r /\
      match xs' with [] => True | y :: _ => same h y = false end /\ runs same xs' ks ds /\
      dd same h xs = (ks, r ++ ds).
  Proof.
    induction xs as [|x xs IH]; intros h; simpl.
    - exists [], [], [], []. split_and!; try done. constructor.
    - destruct (same h x) eqn:Es.
      + destruct (IH h) as (r&xs'&ks&ds&->&Hf&Hh&Hr&Hd). exists (x :: r), xs', ks, ds.
        rewrite Hd. simpl. split_and!; try done. by constructor.
      + destruct (IH x) as (r&xs'&ks&ds&->&Hf&Hh&Hr&Hd). exists [], (x :: r ++ xs'), (x :: ks), (r ++ ds).
        rewrite Hd. simpl. split_and!; try done. by constructor.
  Qed.

  Lemma dd_runs_cons same x xs : runs same (x :: xs) (x :: fst (dd same x xs)) (snd (dd same x xs)).
  Proof.
    destruct (dd_runs same xs x) as (r&xs'&ks&ds&->&Hf&Hh&Hr&Hd). rewrite Hd. simpl. by constructor.
  Qed.

  Lemma dedup_key_run_dd {K} (keq : K -> K -> bool) (key : T -> K) xs : forall h,
    no_drop_panic ->
    dedup_key_run keq (fun _ x => (tt, x, Some (key x))) tt (key h) xs =
      (Ret tt, fst (dd (fun a b => keq (key a) (key b)) h xs),
               snd (dd (fun a b => keq (key a) (key b)) h xs)).
  Proof.
    induction xs as [|x xs IH]; intros h Hn; simpl; [done|].
    rewrite Hn, andb_false_r. destruct (keq (key h) (key x)); by rewrite IH.
  Qed.

  Lemma dedup_run_dd (same : T -> T -> bool) xs : forall h,
    no_drop_panic ->
    dedup_run (fun _ a b => (tt, (a, b), Some (same a b))) tt h xs =
      (Ret tt, fst (dd (fun a b => same b a) h xs), snd (dd (fun a b => same b a) h xs)).
  Proof.
    induction xs as [|x xs IH]; intros h Hn; simpl; [done|].
    rewrite Hn, andb_false_r. destruct (same x h); by rewrite IH.
  Qed.

  Lemma dedup_first_dd (same : T -> T -> bool) xs : forall h,
    no_drop_panic ->
    dedup_first (fun _ a b => (tt, (a, b), Some (same a b))) tt h xs =
      (Ret tt, h :: fst (dd (fun a b => same b a) h xs), snd (dd (fun a b => same b a) h xs)).
  Proof.
    induction xs as [|x xs IH]; intros h Hn; simpl; [done|].
    rewrite Hn, andb_false_r. destruct (same x h); [by rewrite IH|]. by rewrite dedup_run_dd.
  Qed.

  Lemma dedup_calm (same : T -> T -> bool) w v xs :
    rep w v xs -> no_drop_panic ->
    exists v' w' k d, dedup same (v, w) = (Ret tt, (v', w')) /\
      runs (fun a b => same b a) (without_second xs) k d /\ rep w' v' k /\ keeps v w v' w' d.
  Proof.
    intros Hr Hn. unfold dedup.
    destruct (vec_dedup_by_ok Hz (fun _ a b => (tt, (a, b), Some (same a b))) tt w v xs Hr)
      as (v'&w'&o&k&d&He&Ha&Hr'&Hk).
    exists v', w', k, d. rewrite He. destruct xs as [|x R]; simpl in Ha.
    - injection Ha as <- <- <-. split_and!; try done. constructor.
    - rewrite dedup_first_dd in Ha by done. injection Ha as <- <- <-. split_and!; try done.
      destruct R as [|y R]; simpl; apply dd_runs_cons.
  Qed.

  Lemma dedup_by_key_calm {K} (keq : K -> K -> bool) (key : T -> K) w v xs :
    rep w v xs -> no_drop_panic ->
    exists v' w' k d,
      dedup_by_key keq (fun _ x => (tt, x, Some (key x))) tt (v, w) = (Ret tt, (v', w')) /\
      runs (fun a b => keq (key a) (key b)) (without_second xs) k d /\ rep w' v' k /\
      keeps v w v' w' d.
  Proof.
    intros Hr Hn.
    destruct (vec_dedup_by_key_ok Hz keq (fun _ x => (tt, x, Some (key x))) tt w v xs Hr)
      as (v'&w'&o&k&d&He&Ha&Hr'&Hk).
    exists v', w', k, d. rewrite He. destruct xs as [|x R]; simpl in Ha.
    - injection Ha as <- <- <-. split_and!; try done. constructor.
    - rewrite dedup_key_run_dd in Ha by done. injection Ha as <- <- <-. split_and!; try done.
      destruct R as [|y R]; simpl; apply dd_runs_cons.
  Qed.

  (** ** Panicking callbacks *)
  Lemma retain_run_sub {St} (f : St -> T -> St * option bool) xs : forall st o k d,
    retain_run f st xs = (o, k, d) -> k ++ d ⊆+ xs.
  Proof.
    induction xs as [|x xs IH]; intros st o k d; simpl.
    - intros [= <- <- <-]. done.
    - destruct (f st x) as [st' [[]|]].
      + destruct (retain_run f st' xs) as [[o' k'] d'] eqn:E. intros [= <- <- <-]. simpl.
        apply submseteq_skip. by eapply IH.
      + destruct (t_needs_drop && t_drop_panics x).
        * intros [= <- <- <-]. simpl. apply submseteq_skip, submseteq_nil_l.
        * destruct (retain_run f st' xs) as [[o' k'] d'] eqn:E. intros [= <- <- <-].
          rewrite <-Permutation_middle. apply submseteq_skip. by eapply IH.
      + intros [= <- <- <-]. apply submseteq_nil_l.
  Qed.

  Lemma retain_all_sub {St} (f : St -> T -> St * option bool) xs st o k d :
    retain_all f st xs = (o, k, d) -> k ++ d ⊆+ xs.
  Proof.
    destruct xs as [|x xs]; simpl; [intros [= <- <- <-]; done|].
    destruct (f st x) as [st' [[]|]].
    - destruct (retain_run f st' (tail xs)) as [[o' k'] d'] eqn:E. intros [= <- <- <-]. simpl.
      apply submseteq_skip. etrans; [by eapply retain_run_sub|].
      destruct xs; simpl; [done|by apply submseteq_cons].
    - destruct (t_needs_drop && t_drop_panics x).
      + intros [= <- <- <-]. simpl. apply submseteq_skip, submseteq_nil_l.
      + destruct (retain_run f st' xs) as [[o' k'] d'] eqn:E. intros [= <- <- <-].
        rewrite <-Permutation_middle. apply submseteq_skip. by eapply retain_run_sub.
    - intros [= <- <- <-]. by rewrite app_nil_r.
  Qed.

  Lemma dedup_key_run_sub {St K} (keq : K -> K -> bool) (key : St -> T -> St * option K) xs :
    forall st prev o k d,
    dedup_key_run keq (fun st x => (fst (key st x), x, snd (key st x))) st prev xs = (o, k, d) ->
    k ++ d ⊆+ xs.
  Proof.
    induction xs as [|x xs IH]; intros st prev o k d; simpl.
    - intros [= <- <- <-]. done.
    - destruct (key st x) as [st' [kx|]]; simpl; [|intros [= <- <- <-]; apply submseteq_nil_l].
      destruct (keq prev kx).
      + destruct (t_needs_drop && t_drop_panics x).
        * intros [= <- <- <-]. simpl. apply submseteq_skip, submseteq_nil_l.
        * destruct (dedup_key_run _ _ st' prev xs) as [[o' k'] d'] eqn:E. intros [= <- <- <-].
          rewrite <-Permutation_middle. apply submseteq_skip. by eapply IH.
      + destruct (dedup_key_run _ _ st' kx xs) as [[o' k'] d'] eqn:E. intros [= <- <- <-]. simpl.
        apply submseteq_skip. by eapply IH.
  Qed.

  Lemma dedup_key_all_sub {St K} (keq : K -> K -> bool) (key : St -> T -> St * option K) xs
    st o k d :
    dedup_key_all keq (fun st x => (fst (key st x), x, snd (key st x))) st xs = (o, k, d) ->
    k ++ d ⊆+ xs.
  Proof.
    destruct xs as [|x xs]; simpl; [intros [= <- <- <-]; done|].
    destruct (key st x) as [st' [kx|]]; simpl; [|intros [= <- <- <-]; by rewrite app_nil_r].
    destruct (dedup_key_run _ _ st' kx (tail xs)) as [[o' k'] d'] eqn:E. intros [= <- <- <-]. simpl.
    apply submseteq_skip. etrans; [by eapply dedup_key_run_sub|].
    destruct xs; simpl; [done|by apply submseteq_cons].
  Qed.

  Lemma dedup_run_sub {St} (f : St -> T -> T -> St * option bool) xs : forall st h o k d,
    dedup_run (fun st a b => (fst (f st a b), (a, b), snd (f st a b))) st h xs = (o, k, d) ->
    k ++ d ⊆+ xs.
  Proof.
    induction xs as [|x xs IH]; intros st h o k d; simpl.
    - intros [= <- <- <-]. done.
    - destruct (f st x h) as [st' [[]|]]; simpl.
      + destruct (t_needs_drop && t_drop_panics x).
        * intros [= <- <- <-]. simpl. apply submseteq_skip, submseteq_nil_l.
        * destruct (dedup_run _ st' h xs) as [[o' k'] d'] eqn:E. intros [= <- <- <-].
          rewrite <-Permutation_middle. apply submseteq_skip. by eapply IH.
      + destruct (dedup_run _ st' x xs) as [[o' k'] d'] eqn:E. intros [= <- <- <-]. simpl.
        apply submseteq_skip. by eapply IH.
      + intros [= <- <- <-]. apply submseteq_nil_l.
  Qed.

  Lemma dedup_first_sub {St} (f : St -> T -> T -> St * option bool) xs : forall st h o k d,
    dedup_first (fun st a b => (fst (f st a b), (a, b), snd (f st a b))) st h xs = (o, k, d) ->
    k ++ d ⊆+ h :: xs.
  Proof.
    induction xs as [|x xs IH]; intros st h o k d; simpl.
    - intros [= <- <- <-]. done.
    - destruct (f st x h) as [st' [[]|]]; simpl.
      + destruct (t_needs_drop && t_drop_panics x).
        * intros [= <- <- <-]. simpl. apply submseteq_skip, submseteq_skip, submseteq_nil_l.
        * destruct (dedup_first _ st' h xs) as [[o' k'] d'] eqn:E. intros [= <- <- <-].
          rewrite <-Permutation_middle, (Permutation_swap x h). apply submseteq_skip. by eapply IH.
      + destruct (dedup_run _ st' x xs) as [[o' k'] d'] eqn:E. intros [= <- <- <-]. simpl.
        apply submseteq_skip, submseteq_skip. by eapply dedup_run_sub.
      + intros [= <- <- <-]. simpl. apply submseteq_skip, submseteq_nil_l.
  Qed.

  Lemma dedup_all_sub {St} (f : St -> T -> T -> St * option bool) xs st o k d :
    dedup_all (fun st a b => (fst (f st a b), (a, b), snd (f st a b))) st xs = (o, k, d) ->
    k ++ d ⊆+ xs.
  Proof.
    destruct xs as [|x xs]; simpl; [intros [= <- <- <-]; done|]. intros H.
    etrans; [by eapply dedup_first_sub|]. apply submseteq_skip.
    destruct xs; simpl; [done|by apply submseteq_cons].
  Qed.
End compact.

Section iter.
  Context {EN : Env} {T : Type} {EL : Elem T} (Hz : 0 < t_size).
  Notation W := (world T).
  Implicit Types (w : W) (v : vec) (xs ys : list T) (i : into_iter).

  (** A sequence of [next] ([true]) and [next_back] ([false]) calls. *)
  Fixpoint it_run (cs : list bool) (st : into_iter * W)
    : list (res (option T)) * (into_iter * W) :=
    match cs with
    | [] => ([], st)
    | c :: cs =>
        let '(r, st1) := (if c then it_next else it_next_back) st in
        let '(rs, st2) := it_run cs st1 in (r :: rs, st2)
    end.

  Lemma it_run_ok cs : forall i w ys xs,
    it_rep w i ys xs -> deque_ok cs xs ->
    exists i' ys', it_run cs (i, w) = (Ret <$> fst (deque cs xs), (i', w)) /\
      it_rep w i' ys' (snd (deque cs xs)) /\ vdata (it_vec i') = vdata (it_vec i).
  Proof.
    induction cs as [|c cs IH]; intros i w ys xs Hr Hok; simpl.
    - eauto.
    - destruct Hok as [Hne Hok]. destruct c; simpl in *.
      + destruct (it_next_ok Hz _ _ _ _ Hr) as (i1&He&Hv&Hi). rewrite He.
        assert (exists ys1, it_rep w i1 ys1 (tail xs)) as [ys1 Hr1].
        { destruct xs as [|x xs]; [subst i1; eauto|eauto]. }
        destruct (IH i1 w ys1 (tail xs) Hr1 Hok) as (i2&ys2&He2&Hr2&Hd). rewrite He2.
        destruct (deque cs (tail xs)) as [os zs] eqn:Ed. simpl in *.
        exists i2, ys2. split_and!; try done. by rewrite Hd, Hv.
      + destruct (it_next_back_ok Hz _ _ _ _ Hr (Hne eq_refl)) as (i1&He&Hr1&Hv). rewrite He.
        destruct (IH i1 w ys _ Hr1 Hok) as (i2&ys2&He2&Hr2&Hd). rewrite He2.
        destruct (deque cs (take (length xs - 1) xs)) as [os zs] eqn:Ed. simpl in *.
        exists i2, ys2. split_and!; try done. by rewrite Hd, Hv.
  Qed.

  Lemma into_iter_rep w v xs : rep w v xs -> it_rep w (vec_into_iter v) [] xs.
  Proof. intros Hr. by split. Qed.

  (** Once everything was taken from the front, the back yields the last element again. *)
  Lemma next_back_again w i ys x :
    it_rep w i (ys ++ [x]) [] ->
    exists i', it_next_back (i, w) = (Ret (Some x), (i', w)) /\
      it_index i' = llen ys + 1 /\ rep w (it_vec i') ys.
  Proof.
    intros [Hi Hr]. rewrite app_nil_r in Hr.
    destruct (it_back_ok Hz w i _ Hr) as (i'&He&Hx&Hr'&_). exists i'.
    rewrite last_snoc in He. rewrite app_length in Hi, Hr'. simpl in Hi, Hr'. split_and!; [done|lia|].
    by rewrite Nat.add_sub, take_app in Hr'.
  Qed.

  (** Dropping such an iterator is not possible: its index is beyond its length. *)
  Lemma it_drop_crossed w i ys :
    it_index i = llen ys + 1 -> rep w (it_vec i) ys ->
    (e_checks = true /\ exists st, it_drop_body (i, w) = (Panic PArith, st)) \/
    (e_checks = false /\ exists st, it_drop (i, w) = (UB Precond, st)).
  Proof.
    intros Hi Hr. pose proof Hr as [Hl [rest Ho]].
    pose proof (rep_cap Hz _ _ _ Hr) as [Hc Hf]. pose proof (fits_bound Hz _ Hf) as Hb.
    unfold it_drop, finally.
    assert (exists st, it_drop_body (i, w) =
      if e_checks then (Panic PArith, st) else (UB Precond, st)) as [st He].
    { unfold it_drop_body. rewrite bind_get_fst, Hl, Hi.
      erewrite (bind_Ret (on_it_vec (vec_set_len 0))).
      2: { unfold on_it_vec. simpl. rewrite (vec_set_len_eq Hz _ _ _ _ Ho) by lia. reflexivity. }
      unfold usub. destruct (N.leb_spec (llen ys + 1) (llen ys)); [lia|].
      destruct e_checks; [rewrite bind_throw; eauto|]. rewrite bind_ret.
      assert (isize_max <? (llen ys + two64 - (llen ys + 1)) * t_size = true) as ->.
      { apply N.ltb_lt. unfold isize_max, two64 in *. nia. }
      unfold undef. eauto. }
    destruct e_checks eqn:E; [left|right]; (split; [done|]); [eauto|].
    exists st. by erewrite bind_UB by (by apply on_unwind_UB).
  Qed.
End iter.

Section destructors.
  Context {EN : Env} {T : Type} {EL : Elem T} (Hz : 0 < t_size).
  Notation W := (world T).
  Implicit Types (w : W) (v : vec) (xs ys : list T).

  Definition bad (x : T) : bool := t_needs_drop && t_drop_panics x.

  Lemma drops_until_prefix l : exists l', l = fst (drops_until l) ++ l'.
  Proof.
    induction l as [|x l [l' IH]]; simpl; [by exists []|].
    destruct (t_needs_drop && t_drop_panics x); [by exists l|].
    destruct (drops_until l) as [d r]. simpl in *. exists l'. by rewrite IH at 1.
  Qed.

  Lemma drops_until_split l1 x l2 :
    Forall (fun y => bad y = false) l1 -> bad x = true ->
    drops_until (l1 ++ x :: l2) = (l1 ++ [x], Panic PDrop).
  Proof.
    unfold bad. intros Hf Hx. induction Hf as [|y l1 Hy Hf IH]; simpl; [by rewrite Hx|].
    by rewrite Hy, IH.
  Qed.

  Lemma drops_glue_prefix l : forall b, exists l', l = fst (drops_glue b l) ++ l'.
  Proof.
    induction l as [|x l IH]; intros b; simpl; [by exists []; destruct b|].
    destruct (t_needs_drop && t_drop_panics x); [destruct b; [by exists l|]|].
    - destruct (IH true) as [l' Hl]. destruct (drops_glue true l) as [d r]. simpl in *.
      exists l'. by rewrite Hl at 1.
    - destruct (IH b) as [l' Hl]. destruct (drops_glue b l) as [d r]. simpl in *.
      exists l'. by rewrite Hl at 1.
  Qed.

  Lemma drops_until_res l : snd (drops_until l) = Ret tt \/ snd (drops_until l) = Panic PDrop.
  Proof.
    induction l as [|x l IH]; simpl; [by left|].
    destruct (t_needs_drop && t_drop_panics x); [by right|]. by destruct (drops_until l).
  Qed.

  (** Dropping a vector whose elements may panic: a prefix is destroyed, each element once. *)
  Lemma vec_drop_val_any w v xs :
    rep w v xs ->
    exists r w' ds l', vec_drop_val v w = (r, w') /\ (r = Ret tt \/ r = Panic PDrop) /\
      drops w' = drops w ++ ds /\ xs = ds ++ l'.
  Proof.
    intros Hr. pose proof Hr as [Hl _]. unfold vec_drop_val.
    destruct (drops_until_res xs) as [Hok|Hbad].
    - destruct (vec_drop_ok Hz w v xs Hr Hok) as (w'&He&_&Hd&_). rewrite He.
      destruct (drops_until_prefix xs) as [l' Hp].
      exists (Ret tt), w', (fst (drops_until xs)), l'. split_and!; try done. by left.
    - unfold vec_drop. rewrite bind_get_fst. destruct (N.ltb_spec 0 (vcap v)) as [Hc|Hc].
      + rewrite Hl. erewrite bind_Panic.
        2: { apply on_snd_Ret. rewrite (drop_loop_rep Hz w v xs Hr), Hbad. reflexivity. }
        destruct (drops_until_prefix xs) as [l' Hp].
        eexists (Panic PDrop), _, (fst (drops_until xs)), l'. split_and!; [done|by right| |done].
        by rewrite drops_add_drops.
      + destruct (rep_cap Hz _ _ _ Hr) as [Hle _]. destruct xs; [done|]. simpl in Hle. lia.
  Qed.

  (** [clear] interrupted by a panicking destructor, then the vector is dropped: the elements up
      to and including the culprit are destroyed twice. *)
  Lemma clear_twice w v l1 x l2 :
    rep w v (l1 ++ x :: l2) -> Forall (fun y => bad y = false) l1 -> bad x = true ->
    exists w1 w2, vec_clear (v, w) = (Panic PDrop, (v, w1)) /\
      vec_drop_val v w1 = (Panic PDrop, w2) /\
      drops w1 = drops w ++ l1 ++ [x] /\ drops w2 = drops w1 ++ l1 ++ [x].
  Proof.
    intros Hr Hf Hx. pose proof (drops_until_split l1 x l2 Hf Hx) as Hd.
    rewrite (clear_ok Hz w v _ Hr), Hd. eexists _, _. split; [done|].
    set (w1 := add_drops (l1 ++ [x]) w).
    assert (rep w1 v (l1 ++ x :: l2)) as Hr1.
    { destruct Hr as [Hl [rest Ho]]. split; [done|]. exists rest. by apply owns_drops. }
    unfold vec_drop_val, vec_drop. rewrite bind_get_fst.
    destruct (rep_cap Hz _ _ _ Hr) as [Hle _]. rewrite app_length in Hle. simpl in Hle.
    destruct (N.ltb_spec 0 (vcap v)); [|lia].
    erewrite bind_Panic.
    2: { apply on_snd_Ret. rewrite (proj1 Hr1), (drop_loop_rep Hz w1 v _ Hr1), Hd. reflexivity. }
    split; [done|]. unfold w1. split; [by rewrite drops_add_drops|]. by rewrite !drops_add_drops.
  Qed.

  (** [truncate] with panicking destructors, then dropping what is left. *)
  Lemma truncate_once w v xs n :
    rep w v xs ->
    exists r v' w' r2 w2 d1 d2 l1 l2,
      vec_truncate n (v, w) = (r, (v', w')) /\ vec_drop_val v' w' = (r2, w2) /\
      rep w' v' (take (N.to_nat n) xs) /\
      drops w' = drops w ++ d1 /\ drops w2 = drops w' ++ d2 /\
      drop (N.to_nat n) xs = d1 ++ l1 /\ take (N.to_nat n) xs = d2 ++ l2.
  Proof.
    intros Hr. destruct (truncate_ok Hz w v xs n Hr) as (v'&He&Hr'&_).
    destruct (drops_glue_prefix (drop (N.to_nat n) xs) false) as [l1 Hl1].
    set (d1 := fst (drops_glue false (drop (N.to_nat n) xs))) in *.
    assert (rep (add_drops d1 w) v' (take (N.to_nat n) xs)) as Hr1.
    { destruct Hr' as [Hl [rest Ho]]. split; [done|]. exists rest. by apply owns_drops. }
    destruct (vec_drop_val_any _ _ _ Hr1) as (r2&w2&d2&l2&He2&_&Hd2&Hl2).
    eexists _, v', _, r2, w2, d1, d2, l1, l2. split_and!; try done. by rewrite drops_add_drops.
  Qed.
End destructors.

Section compare.
  Context {EN : Env} {T : Type} {EL : Elem T} (Hz : 0 < t_size).
  Notation W := (world T).
  Implicit Types (w : W) (v : vec) (xs ys : list T).

  Lemma slice_eq_spec (eqb : T -> T -> bool) a : forall b,
    slice_eq eqb a b = true <-> Forall2 (fun x y => eqb x y = true) a b.
  Proof.
    induction a as [|x a IH]; intros [|y b]; simpl; split; try done; try (by inversion 1).
    - intros [? ?]%andb_true_iff. constructor; [done|by apply IH].
    - inversion 1; subst. apply andb_true_iff. split; [done|by apply IH].
  Qed.

  Lemma slice_cmp_spec (cmp : T -> T -> comparison) a : forall b, lex cmp a b (slice_cmp cmp a b).
  Proof.
    induction a as [|x a IH]; intros [|y b]; simpl.
    - by constructor.
    - by apply (lex_shorter cmp [] y b []).
    - by apply (lex_longer cmp [] x a []).
    - destruct (cmp x y) eqn:E.
      + destruct (IH b) as [xs ys H|xs z ys zs H|xs z ys zs H|xs zs p q xs' zs' c H Hc Hn].
        * constructor. by constructor.
        * apply (lex_shorter cmp (x :: xs) z ys (y :: zs)). by constructor.
        * apply (lex_longer cmp (x :: xs) z ys (y :: zs)). by constructor.
        * apply (lex_diff cmp (x :: xs) (y :: zs) p q xs' zs' c); [by constructor|done|done].
      + by apply (lex_diff cmp [] [] x y a b Lt).
      + by apply (lex_diff cmp [] [] x y a b Gt).
  Qed.

  Lemma vec_eq_ok eqb w v1 v2 xs ys :
    rep w v1 xs -> rep w v2 ys -> vec_eq eqb v1 v2 w = (Ret (slice_eq eqb xs ys), w).
  Proof.
    intros H1 H2. unfold vec_eq. erewrite bind_Ret by (by apply (as_slice_ok Hz)).
    by erewrite bind_Ret by (by apply (as_slice_ok Hz)).
  Qed.
  Lemma vec_cmp_ok cmp w v1 v2 xs ys :
    rep w v1 xs -> rep w v2 ys -> vec_cmp cmp v1 v2 w = (Ret (slice_cmp cmp xs ys), w).
  Proof.
    intros H1 H2. unfold vec_cmp. erewrite bind_Ret by (by apply (as_slice_ok Hz)).
    by erewrite bind_Ret by (by apply (as_slice_ok Hz)).
  Qed.
  Lemma vec_hash_ok {H} (hlen : H -> N -> H) hel h w v xs :
    rep w v xs -> vec_hash hlen hel h v w = (Ret (fold_left hel xs (hlen h (llen xs))), w).
  Proof.
    intros H1. unfold vec_hash. by erewrite bind_Ret by (by apply (as_slice_ok Hz)).
  Qed.
End compare.

Section drain.
  Context {EN : Env} {T : Type} {EL : Elem T} (Hz : 0 < t_size).
  Notation W := (world T).
  Implicit Types (w : W) (v : vec) (xs ys : list T).

  (** An empty range [a..a]: nothing is drained, yet dropping the drain cuts the vector at [a]
      (the rest is leaked), or is undefined behaviour under strict rules. *)
  Lemma drain_empty w v xs a :
    rep w v xs -> a <= llen xs ->
    exists v1 d, drain_new (Included a) (Excluded a) (v, w) = (Ret d, (v1, w)) /\
      drain_next d (v1, w) = (Ret (None, d), (v1, w)) /\
      drain_next_back d (v1, w) = (Ret (None, d), (v1, w)) /\
      (e_strict = true -> drain_drop d (v1, w) = (UB Precond, (v1, w))) /\
      (e_strict = false -> exists v2, drain_drop d (v1, w) = (Ret tt, (v2, w)) /\
         rep w v2 (take (N.to_nat a) xs)).
  Proof.
    intros Hr Ha. pose proof Hr as [Hl [rest Ho]].
    assert (vec_set_len a (v, w) = (Ret tt, (Vec (v_ptr v) a, w))) as He.
    { apply (vec_set_len_eq Hz w v _ a Ho). rewrite app_length, fmap_length. lia. }
    exists (Vec (v_ptr v) a), (Drain a 0 a a a). split_and!.
    - unfold drain_new. rewrite bind_ret. unfold vx_get_len. rewrite bind_assoc, bind_get_fst, !bind_ret.
      simpl vx_set_len. erewrite bind_Ret by exact He.
      rewrite bind_assoc, bind_get_fst, bind_ret. simpl vx_len.
      unfold vx_len. simpl. rewrite N.leb_refl, N.sub_diag. done.
    - done.
    - done.
    - intros Hs. unfold drain_drop. simpl. rewrite bind_ret. unfold vx_get_len.
      rewrite bind_assoc, bind_get_fst, bind_ret. simpl. unfold assume. rewrite Hs.
      by rewrite N.ltb_irrefl.
    - intros Hs. exists (Vec (v_ptr v) a). split.
      + unfold drain_drop. simpl. rewrite bind_ret. unfold vx_get_len.
        rewrite bind_assoc, bind_get_fst, bind_ret. simpl. unfold assume. rewrite Hs. simpl.
        rewrite !bind_ret, bind_usub, N.sub_diag by lia. rewrite bind_assoc, bind_get_fst.
        erewrite bind_Ret by (apply on_snd_Ret; apply copy_at_0).
        rewrite bind_usub by lia. rewrite N.sub_0_r.
        rewrite (vec_set_len_eq Hz w (Vec (v_ptr v) a) ((Some <$> xs) ++ rest) a); [done|done|].
        rewrite app_length, fmap_length. lia.
      + split; [simpl; rewrite take_length; lia|].
        exists ((Some <$> drop (N.to_nat a) xs) ++ rest).
        rewrite app_assoc, <-fmap_app, take_drop. done.
  Qed.
End drain.
