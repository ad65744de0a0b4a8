(** Proofs of the statements on [Rc] and [Weak]. *)
From Verif Require Export Witness RcRun3.
From Coq Require Import ZifyBool ZifyNat ZifyN.

Section aux.
  Context {EN : Env} {T : Type} {EL : Elem T}.
  Local Existing Instance box_elem.
  Notation W := (world (rcbox T)).
  Notation Tab := (list (option handle)).
  Implicit Types (w : W) (b : N) (rb : rcbox T) (tab : Tab) (st : rcspec T).

  Lemma rspec_det (cl : T -> option T) r r' st op o st1 st2 :
    rspec cl r st op = (o, st1) -> rspec cl r' st op = (o, st2) -> st1 = st2.
  Proof. destruct op; simpl; intros; repeat case_match; simplify_eq; done. Qed.

  Lemma follows_R n0 st ops refs outs st' tab w s :
    rtrace t_clone st ops refs outs st' -> R n0 st tab w ->
    llen tab + llen ops + 2 <= usize_max -> rrun ops (tab, ([], w)) = (outs, s) ->
    exists tab' w', s = (tab', ([], w')) /\ R n0 st' tab' w' /\ cur_scope w' = cur_scope w /\
      llen tab' <= llen tab + llen ops.
  Proof.
    intros Ht. revert tab w. induction Ht as [st|st op ops r rs o outs st1 st2 Ho Hs Hd Ht IH];
      intros tab w HR Hl E.
    { injection E as <-. exists tab, w. split_and!; try apply HR; try done. simpl; lia. }
    simpl in Hl. destruct (step_refines n0 st tab w op HR Ho)
      as (r'&o'&st1'&tab1&w1&E1&Es&HR1&Hd'&_&_&Hcur&Hl1); [lia|].
    destruct (rrun ops (tab1, ([], w1))) as [outs' s'] eqn:E2.
    rewrite (rrun_cons_def op ops _ _ s' o' outs' E1 Hd' E2) in E.
    injection E as <- <- <-. rewrite (rspec_det _ _ _ _ _ _ _ _ Hs Es) in *.
    destruct (IH tab1 w1 HR1) as (tab'&w'&->&HR'&Hcur'&Hl'); [lia|done|].
    exists tab', w'. split; [done|]. split; [done|]. split; [congruence|simpl; lia].
  Qed.

  Lemma rc_follows_R w0 ops st tab d w : rc_follows w0 ops st tab d w ->
    R (next_id w0) st tab w /\ d = [] /\ cur_scope w = cur_scope w0 /\ llen tab <= llen ops.
  Proof.
    intros (Hf&Hl&refs&outs&Ht&E).
    destruct (follows_R (next_id w0) _ _ _ _ _ [] w0 (tab, (d, w)) Ht) as (tab'&w'&[= -> -> ->]&HR&Hc&Hl');
      [by apply R_start|simpl; lia|done|]. split; [done|]. split; [done|]. split; [done|simpl in Hl'; lia].
  Qed.

  Lemma rc_reached_inv w0 ops tab d w : rc_reached w0 ops tab d w ->
    inv (next_id w0) (tab, ([], w)) /\ d = [] /\ extends w0 w /\ llen tab <= llen ops.
  Proof.
    intros (Hf&Hl&outs&E).
    destruct (run_inv (next_id w0) ops [] w0) as (outs'&tab'&w'&E'&Hi&He&_&Hl');
      [by apply inv_start|simpl; lia|]. rewrite E in E'. injection E' as -> -> -> ->.
    split; [done|]. split; [done|]. split; [done|]. simpl in Hl'; lia.
  Qed.

  Lemma reads_rc tab w i (p : sptr) b n k x : tab !! i = Some (Some (HRc p)) -> sp_ptr p = Blk b ->
    box_at w b (RcBox n k (Val x)) -> reads i (tab, ([], w)) = Ret (RGot x).
  Proof.
    intros Hi Hp Hb. unfold reads, rexec. erewrite with_rc_some by done.
    by erewrite bind_Ret by (apply on_snd_Ret; by eapply rc_as_ref_ok).
  Qed.
  Lemma setb_other b rb w c : b <> c -> heap (setb b rb w) !! c = heap w !! c.
  Proof.
    intros Hne. unfold setb. simpl. destruct (heap w !! b); simpl; [|done]. by rewrite lookup_insert_ne.
  Qed.
  (** A handle reads the same when its box is kept. *)
  Lemma reads_frame n0 st st' tab tab' w w' j :
    R n0 st tab w -> R n0 st' tab' w' -> s_tab st' !! j = s_tab st !! j ->
    (forall c, s_tab st !! j = Some (Some (SRc c)) -> s_cells st' !! c = s_cells st !! c) ->
    reads j (tab', ([], w')) = reads j (tab, ([], w)).
  Proof.
    intros HR HR' Ej Hc. destruct (spec_rc_or st j) as [[c Hj]|Hj].
    - destruct (R_get n0 st tab w j c HR Hj) as (p&x&Hp&Eb&_&Hx&Hbox).
      pose proof Hj as Hj'. rewrite <-Ej in Hj'.
      destruct (R_get n0 st' tab' w' j c HR' Hj') as (p'&x'&Hp'&Eb'&_&Hx'&Hbox').
      rewrite (Hc c Hj), Hx in Hx'. injection Hx' as <-.
      by rewrite (reads_rc _ _ _ _ _ _ _ _ Hp Eb Hbox), (reads_rc _ _ _ _ _ _ _ _ Hp' Eb' Hbox').
    - assert (Hj' : forall c, s_tab st' !! j <> Some (Some (SRc c))) by (by rewrite Ej).
      unfold reads, rexec. rewrite !with_rc_other; [done|by eapply R_not_rc..].
  Qed.
End aux.

(** A new world of scope 7, for the examples. *)
Definition wr_start : world (rcbox N) := World ∅ 0 0 [] [] (Some 7).
Lemma wr_start_fresh : forall b, next_id wr_start <= b -> heap wr_start !! b = None.
Proof. intros b _. apply lookup_empty. Qed.
Definition rdemo (EN : Env) (ops : list (rop N)) := @rrun EN N num_drop ops ([], ([], wr_start)).
Notation rtab EN ops := (fst (snd (rdemo EN ops))).
Notation rdrops EN ops := (fst (snd (snd (rdemo EN ops)))).
Notation rworld EN ops := (snd (snd (snd (rdemo EN ops)))).
Lemma rdemo_reached EN ops : llen ops + 2 <=? usize_max = true ->
  @rc_reached EN N num_drop wr_start ops (rtab EN ops) (rdrops EN ops) (rworld EN ops).
Proof.
  intros Hl. split; [apply wr_start_fresh|]. split; [by apply N.leb_le|].
  exists (fst (rdemo EN ops)). fold (rdemo EN ops). by destruct (rdemo EN ops) as [? [? [? ?]]].
Qed.

(** Two values; the first has two [Rc]s and a [Weak], the second one [Rc]. *)
Definition ops_rc : list (rop N) :=
  [RNew 5; RClone 0; RDowngrade 0; RNew 8; RWClone 2; RWUpgrade 4; RDrop 1; RWDrop 4; RWNew].
Definition st_rc : rcspec N :=
  RcSpec [Some 5; Some 8]
    [Some (SRc 0); None; Some (SWeak (Some 0%nat)); Some (SRc 1); None; Some (SRc 0); Some (SWeak None)].

Fixpoint spec_run {T} (cl : T -> option T) (st : rcspec T) (ops : list (rop T))
  : list (res (robs T)) * rcspec T :=
  match ops with
  | [] => ([], st)
  | op :: ops => let '(o, st1) := rspec cl None st op in
                 let '(outs, st2) := spec_run cl st1 ops in (o :: outs, st2)
  end.
Definition can_orphan {T} (st : rcspec T) (op : rop T) : bool :=
  match op with
  | RDrop i | RTryUnwrap i | RMakeMut i _ =>
      match s_tab st !! i with
      | Some (Some (SRc c)) => (strong_of st c =? 1) && negb (weak_of st c =? 0)
      | _ => false
      end
  | _ => false
  end.
Lemma can_orphan_ok {T} (st : rcspec T) op : can_orphan st op = false -> ~ orphans st op.
Proof.
  intros H (i&c&Hop&Hc&E1&E2). apply N.eqb_neq in E2.
  destruct Hop as [->|[->|[y ->]]]; simpl in H; by rewrite Hc, E1, E2 in H.
Qed.
Fixpoint no_orphans {T} (cl : T -> option T) (st : rcspec T) (ops : list (rop T)) : bool :=
  match ops with
  | [] => true
  | op :: ops => negb (can_orphan st op) &&
                 match rspec cl None st op with
                 | (Ret _, st1) | (Panic _, st1) => no_orphans cl st1 ops
                 | _ => false
                 end
  end.
Lemma no_orphans_trace {T} (cl : T -> option T) ops : forall st, no_orphans cl st ops = true ->
  exists refs, rtrace cl st ops refs (fst (spec_run cl st ops)) (snd (spec_run cl st ops)).
Proof.
  induction ops as [|op ops IH]; intros st H; simpl in *; [exists []; constructor|].
  apply andb_prop in H as [H1 H2]. destruct (rspec cl None st op) as [o st1] eqn:E.
  assert (no_orphans cl st1 ops = true /\ @defined_out T o) as [Hn Hd] by (by destruct o).
  destruct (IH st1 Hn) as [refs Ht]. destruct (spec_run cl st1 ops) as [outs st2]. simpl in *.
  exists (None :: refs). econstructor; try done. apply can_orphan_ok. by destruct (can_orphan st op).
Qed.
Lemma rdemo_follows EN ops st : llen ops + 2 <=? usize_max = true ->
  no_orphans Some (RcSpec [] []) ops = true ->
  spec_run Some (RcSpec [] []) ops = (fst (rdemo EN ops), st) ->
  @rc_follows EN N num_drop wr_start ops st (rtab EN ops) (rdrops EN ops) (rworld EN ops).
Proof.
  intros Hl Hn E. split; [apply wr_start_fresh|]. split; [by apply N.leb_le|].
  destruct (no_orphans_trace Some ops _ Hn) as [refs Ht]. rewrite E in Ht. simpl in Ht.
  exists refs, (fst (rdemo EN ops)). split; [done|].
  fold (rdemo EN ops). by destruct (rdemo EN ops) as [? [? [? ?]]].
Qed.
Lemma follows_rc :
  @rc_follows env_debug N num_drop wr_start ops_rc st_rc (rtab env_debug ops_rc)
    (rdrops env_debug ops_rc) (rworld env_debug ops_rc).
Proof. by apply rdemo_follows; vm_compute. Qed.
(** The last [Rc] is dropped while a [Weak] is left. *)
Definition ops_orphan : list (rop N) := [RNew 5; RDowngrade 0; RDrop 0].
Definition ops_back : list (rop N) := [RNew 5; RDowngrade 0; RDrop 0; RWUpgrade 1].

(** * C49 *)

(** Every history follows the specification (in which the counts are the numbers of live handles)
    to its end or up to a call that takes the last [Rc] from a value with [Weak]s. *)
Lemma p_C49_counts_partial : forall (EN : Env) (T : Type) (EL : Elem T) (w0 : world (rcbox T)) ops,
  (forall b, next_id w0 <= b -> heap w0 !! b = None) -> llen ops + 2 <= usize_max ->
  exists ops1 ops2 refs outs st s, ops = ops1 ++ ops2 /\
    rtrace t_clone (RcSpec [] []) ops1 refs outs st /\
    rrun ops1 ([], ([], w0)) = (outs, s) /\
    (ops2 = [] \/ exists op rest, ops2 = op :: rest /\ orphans st op) /\
    Forall (fun r => r = None \/ r = Some PUnwrap \/ r = Some PNoEnv) refs /\
    ((forall n k, e_aok n k = true) -> is_Some (cur_scope w0) -> Forall (eq None) refs).
Proof.
  intros EN T EL w0 ops Hf Hl.
  destruct (run_refines (next_id w0) ops (RcSpec [] []) [] w0)
    as (ops1&ops2&refs&outs&st&tab&w&->&Ht&E&HR&Hend&Hr&Hal&_); [by apply R_start|simpl; lia|].
  exists ops1, ops2, refs, outs, st, (tab, ([], w)). split_and!; try done.
  intros H1 H2. by apply Hal.
Qed.
Lemma x_C49_counts_partial_ex :
  (llen ops_rc + 2 <=? usize_max) = true /\
  fst (rdemo env_debug (ops_rc ++ [RCounts 0; RWCounts 2; RCounts 3])) =
    replicate 5 (Ret RDone) ++ [Ret (RBool true)] ++ replicate 3 (Ret RDone) ++
    [Ret (RNums 2 1); Ret (RNums 2 1); Ret (RNums 1 0)].
Proof. by split; vm_compute. Qed.

(** The counts a live [Rc] or [Weak] reports after any history: the weak count is always the number
    of [Weak]s; the strong count is the number of [Rc]s, or one more, until the value was moved out
    (then it cannot be read any more). *)
Lemma p_C49_counts_bounds_partial : forall (EN : Env) (T : Type) (EL : Elem T) w0 ops tab d
    (w : world (rcbox T)) i h q,
  rc_reached w0 ops tab d w -> tab !! i = Some h -> target h = Some q ->
  exists n, fst (rexec (match h with Some (HRc _) => RCounts i | _ => RWCounts i end) (tab, (d, w)))
      = Ret (RNums n (live_weaks q tab)) /\
    ((n = live_rcs q tab /\ 1 <= n) \/ n = live_rcs q tab + 1 \/
     (forall j, (exists p, tab !! j = Some (Some (HRc p)) /\ sp_ptr p = q) ->
        reads j (tab, (d, w)) = UB UseAfterMove)).
Proof.
  intros EN T EL w0 ops tab d w i h q Hre Hi Hq.
  destruct (rc_reached_inv _ _ _ _ _ Hre) as (Hinv&->&_&_).
  assert (Hmoved : forall b n k j, q = Blk b -> box_at w b (RcBox n k Moved) ->
    (exists p, tab !! j = Some (Some (HRc p)) /\ sp_ptr p = q) -> reads j (tab, ([], w)) = UB UseAfterMove).
  { intros b n k j -> Hb (p&Hj&Hp). unfold reads, rexec. erewrite with_rc_some by done.
    by erewrite bind_UB by (apply on_snd_Ret; by eapply rc_as_ref_moved). }
  destruct h as [[p|[p|]]|]; try done; simpl in Hq; injection Hq as Hq.
  - destruct (inv_get _ tab w i p Hinv Hi) as (b&n&v&Eb&_&_&Hbox&Hok&_). exists n.
    rewrite Eb in Hq. subst q. split.
    + unfold rexec. erewrite with_rc_some by done.
      erewrite bind_Ret by (apply on_snd_Ret; by eapply rc_strong_count_ok).
      by erewrite bind_Ret by (apply on_snd_Ret; by eapply rc_weak_count_ok).
    + destruct Hok as [->|[[-> H]|H]]; [right; right; intros; by eapply Hmoved|by left|right; by left].
  - destruct (inv_get_weak _ tab w i p Hinv Hi) as (b&n&v&Eb&_&_&Hbox&Hok&_). exists n.
    rewrite Eb in Hq. subst q. split.
    + unfold rexec. erewrite with_weak_some by done. simpl.
      erewrite bind_Ret by (apply on_snd_Ret; by eapply rc_strong_count_ok).
      by erewrite bind_Ret by (apply on_snd_Ret; by eapply rc_weak_count_ok).
    + destruct Hok as [->|[[-> H]|H]]; [right; right; intros; by eapply Hmoved|by left|right; by left].
Qed.
Lemma x_C49_counts_bounds_ex :
  @rc_reached env_debug N num_drop wr_start ops_back (rtab env_debug ops_back)
    (rdrops env_debug ops_back) (rworld env_debug ops_back) /\
  live_weaks (Blk 0) (rtab env_debug ops_back) = 1.
Proof. split; [by apply rdemo_reached|by vm_compute]. Qed.

(** After the last [Rc] was dropped and the [Weak] upgraded, one [Rc] reports two. *)
Lemma p_C49_counts_refuted :
  exists tab d w, @rc_reached env_debug N num_drop wr_start ops_back tab d w /\
    live_rcs (Blk 0) tab = 1 /\ target <$> (tab !! 2%nat) = Some (Some (Blk 0)) /\
    fst (@rexec env_debug N num_drop (RCounts 2) (tab, (d, w))) = Ret (RNums 2 1).
Proof.
  exists (rtab env_debug ops_back), (rdrops env_debug ops_back), (rworld env_debug ops_back).
  split; [by apply rdemo_reached|]. by vm_compute.
Qed.

(** * C50 *)

(** No history of [Rc]s and [Weak]s runs a destructor, frees a block or calls the allocator for
    anything but a new block. *)
Lemma p_C50_never_released_refuted : forall (EN : Env) (T : Type) (EL : Elem T) w0 ops tab d
    (w : world (rcbox T)),
  rc_reached w0 ops tab d w ->
  d = [] /\ (forall b, is_Some (heap w0 !! b) -> is_Some (heap w !! b)) /\
  (forall b, next_id w0 <= b -> b < next_id w -> is_Some (heap w !! b)) /\
  exists l, events w = events w0 ++ l /\
    Forall (fun e => match e with EvDealloc _ _ _ | EvRealloc _ _ _ _ _ => False | _ => True end) l.
Proof.
  intros EN T EL w0 ops tab d w Hre.
  destruct (rc_reached_inv _ _ _ _ _ Hre) as (Hinv&->&[Hh He]&_). split_and!; try done.
  intros b H1 H2. destruct Hinv as (_&_&_&_&Hb). destruct (Hb b H1 H2) as (n&v&(blk&E&_)&_).
  by rewrite E.
Qed.
Lemma x_C50_never_released_ex :
  @rc_reached env_debug N num_drop wr_start ops_rc (rtab env_debug ops_rc) (rdrops env_debug ops_rc)
    (rworld env_debug ops_rc).
Proof. by apply rdemo_reached. Qed.
(** The only handle of a value with a destructor is dropped: the destructor does not run and the
    block stays. *)
Lemma p_C50_released_refuted :
  exists tab d w, @rc_reached env_debug N num_drop wr_start [RNew 5; RDrop 0] tab d w /\
    tab = [None] /\ d = [] /\ is_Some (heap w !! 0).
Proof.
  exists (rtab env_debug [RNew 5; RDrop 0]), (rdrops env_debug [RNew 5; RDrop 0]),
    (rworld env_debug [RNew 5; RDrop 0]).
  split; [by apply rdemo_reached|]. split_and!; try by vm_compute. vm_compute. by eexists.
Qed.
(** What is left of the property: as long as a handle exists, its box is allocated, and no
    destructor runs twice. *)
Lemma p_C50_kept_partial : forall (EN : Env) (T : Type) (EL : Elem T) w0 ops tab d
    (w : world (rcbox T)) i h q,
  rc_reached w0 ops tab d w -> tab !! i = Some h -> target h = Some q ->
  exists b blk rb, q = Blk b /\ heap w !! b = Some blk /\ b_slots blk = [Some rb] /\ next_id w0 <= b /\ d = [].
Proof.
  intros EN T EL w0 ops tab d w i h q Hre Hi Hq.
  destruct (rc_reached_inv _ _ _ _ _ Hre) as (Hinv&->&_&_). destruct Hinv as (_&_&_&Hp&Hb).
  destruct (Hp i h q Hi Hq) as (b&->&H1&H2). destruct (Hb b H1 H2) as (n&v&(blk&E&E')&_).
  by eexists b, blk, _.
Qed.
Lemma x_C50_kept_ex :
  @rc_reached env_debug N num_drop wr_start ops_rc (rtab env_debug ops_rc) (rdrops env_debug ops_rc)
    (rworld env_debug ops_rc) /\ target <$> (rtab env_debug ops_rc !! 3%nat) = Some (Some (Blk 1)).
Proof. split; [by apply rdemo_reached|by vm_compute]. Qed.

(** * C51 *)

(** While an [Rc] is alive and its value was not moved out, upgrading succeeds, after any history.
    (It succeeds without a live [Rc] too.) *)
Lemma p_C51_upgrade_partial : forall (EN : Env) (T : Type) (EL : Elem T) w0 ops tab d
    (w : world (rcbox T)) i p b n k x,
  rc_reached w0 ops tab d w -> tab !! i = Some (Some (HWeak (Some p))) -> sp_ptr p = Blk b ->
  (exists blk, heap w !! b = Some blk /\ b_slots blk = [Some (RcBox n k (Val x))]) ->
  exists w', rexec (RWUpgrade i) (tab, (d, w)) = (Ret (RBool true), (tab ++ [Some (HRc p)], (d, w'))) /\
    reads (length tab) (tab ++ [Some (HRc p)], (d, w')) = Ret (RGot x).
Proof.
  intros EN T EL w0 ops tab d w i p b n k x Hre Hi Ep Hval.
  pose proof Hre as (_&Hl&_). destruct (rc_reached_inv _ _ _ _ _ Hre) as (Hinv&->&_&Hlt).
  destruct (inv_get_weak _ tab w i p Hinv Hi) as (b'&n'&v&Eb&_&_&Hbox&Hok&_).
  assert (b' = b) as -> by congruence.
  assert (n' = n /\ weaks b tab = k /\ v = Val x) as (->&Ew&->).
  { by injection (box_at_fun _ _ _ _ Hval Hbox) as <- <- <-. }
  assert (1 <= n /\ n <= llen tab + 1) as [H1 H2].
  { pose proof (rcs_le b tab). destruct Hok as [?|[[-> ?]| ->]]; [done|lia|lia]. }
  exists (setb b (RcBox (n + 1) k (Val x)) w). rewrite Ew in Hbox. split.
  - unfold rexec. erewrite with_weak_some by done. erewrite (bind_Ret _ _ _ (Some p)); cycle 1.
    { apply on_snd_Ret. simpl. erewrite bind_Ret by (by eapply rc_inner_ok).
      unfold is_dealloc. simpl. rewrite (proj2 (N.eqb_neq n 0)) by lia. simpl.
      erewrite bind_Ret by (eapply inc_strong_ok; [done|done|simpl; lia]). reflexivity. }
    reflexivity.
  - eapply reads_rc; [|done|by eapply box_at_setb]. by rewrite lookup_app_r, Nat.sub_diag by lia.
Qed.
Lemma x_C51_upgrade_ex :
  @rc_reached env_debug N num_drop wr_start ops_rc (rtab env_debug ops_rc) (rdrops env_debug ops_rc)
    (rworld env_debug ops_rc) /\ target <$> (rtab env_debug ops_rc !! 2%nat) = Some (Some (Blk 0)) /\
  fst (rdemo env_debug (ops_rc ++ [RWUpgrade 2; RWUpgrade 6])) =
    fst (rdemo env_debug ops_rc) ++ [Ret (RBool true); Ret (RBool false)].
Proof. split; [by apply rdemo_reached|by split; vm_compute]. Qed.
(** In a history that orphans no value, upgrading succeeds exactly while an [Rc] is alive. *)
Lemma p_C51_upgrade_exact_partial : forall (EN : Env) (T : Type) (EL : Elem T) w0 ops st tab d
    (w : world (rcbox T)) i o,
  rc_follows w0 ops st tab d w -> s_tab st !! i = Some (Some (SWeak o)) ->
  exists s, rexec (RWUpgrade i) (tab, (d, w)) =
    (Ret (RBool (match o with Some c => negb (strong_of st c =? 0) | None => false end)), s).
Proof.
  intros EN T EL w0 ops st tab d w i o Hfo Hi. pose proof Hfo as (_&Hl&_).
  destruct (rc_follows_R _ _ _ _ _ _ Hfo) as (HR&->&_&Hlt).
  destruct (step_refines _ st tab w (RWUpgrade i) HR) as (r&o'&st'&tab'&w'&E&Es&_); [|lia|].
  { intros (k&c&[?|[?|[? ?]]]&_); done. }
  eexists. rewrite E. f_equal. simpl in Es. rewrite Hi in Es.
  destruct o as [c|]; [|by injection Es as <- <-].
  destruct (strong_of st c =? 0); by injection Es as <- <-.
Qed.
Lemma x_C51_upgrade_exact_ex :
  @rc_follows env_debug N num_drop wr_start ops_rc st_rc (rtab env_debug ops_rc)
    (rdrops env_debug ops_rc) (rworld env_debug ops_rc) /\ s_tab st_rc !! 2%nat = Some (Some (SWeak (Some 0%nat))).
Proof. split; [apply follows_rc|done]. Qed.
Lemma p_C51_upgrade_refuted :
  exists tab d w, @rc_reached env_debug N num_drop wr_start ops_orphan tab d w /\
    live_rcs (Blk 0) tab = 0 /\ target <$> (tab !! 1%nat) = Some (Some (Blk 0)) /\
    fst (@rexec env_debug N num_drop (RWUpgrade 1) (tab, (d, w))) = Ret (RBool true).
Proof.
  exists (rtab env_debug ops_orphan), (rdrops env_debug ops_orphan), (rworld env_debug ops_orphan).
  split; [by apply rdemo_reached|]. by vm_compute.
Qed.

(** After any history at all: a [Weak] of a box whose strong count is zero is not upgraded and
    nothing changes. *)
Lemma rc_inner_state {T} (EL : Elem T) p d (w : world (rcbox T)) :
  snd (rc_inner p (d, w)) = (d, w).
Proof.
  unfold rc_inner, on_snd. simpl.
  assert (forall q, snd (@sp_deref _ box_elem q w) = w) as H.
  { intros q. unfold sp_deref, read_at. destruct (t_size =? 0); [done|].
    unfold get_slots, bind. repeat (case_match; simplify_eq; simpl; try done). }
  specialize (H p). destruct (@sp_deref _ box_elem p w). simpl in *. by subst.
Qed.
Lemma weak_zero_inner {EN : Env} {T} {EL : Elem T} tab d (w : world (rcbox T)) i p k :
  tab !! i = Some (Some (HWeak (Some p))) ->
  fst (rexec (RWCounts i) (tab, (d, w))) = Ret (RNums 0 k) ->
  exists b, rc_inner p (d, w) = (Ret b, (d, w)) /\ r_strong b = 0.
Proof.
  intros Hi. simpl. unfold with_weak. simpl. rewrite Hi. unfold weak_strong_count, rc_strong_count.
  pose proof (rc_inner_state EL p d w) as Hs.
  destruct (rc_inner p (d, w)) as [[b|e| |u] s] eqn:E; simpl in Hs; subst s;
    unfold on_snd at 1; unfold bind at 1 2; simpl; rewrite E; try done.
  unfold weak_weak_count, rc_weak_count, on_snd, bind. simpl. rewrite E. simpl.
  intros [= H _]. by exists b.
Qed.
Lemma p_C51_dead_partial : forall (EN : Env) (T : Type) (EL : Elem T) tab d
    (w : world (rcbox T)) i p k,
  tab !! i = Some (Some (HWeak (Some p))) ->
  fst (rexec (RWCounts i) (tab, (d, w))) = Ret (RNums 0 k) ->
  rexec (RWUpgrade i) (tab, (d, w)) = (Ret (RBool false), (tab, (d, w))).
Proof.
  intros EN T EL tab d w i p k Hi Hc. destruct (weak_zero_inner _ _ _ _ _ _ Hi Hc) as (b&E&Hb).
  simpl. unfold with_weak. simpl. rewrite Hi. unfold weak_upgrade, on_snd, bind. simpl. rewrite E.
  unfold is_dealloc. by rewrite Hb.
Qed.
(** Such a box is left behind by [make_mut] of the only [Rc] with a [Weak] in debug builds. *)
Lemma x_C51_dead_ex :
  exists tab d w p, @rc_reached env_debug N num_drop wr_start [RNew 5; RDowngrade 0; RMakeMut 0 6] tab d w /\
    tab !! 1%nat = Some (Some (HWeak (Some p))) /\
    fst (@rexec env_debug N num_drop (RWCounts 1) (tab, (d, w))) = Ret (RNums 0 1).
Proof.
  eexists (rtab env_debug [RNew 5; RDowngrade 0; RMakeMut 0 6]), (rdrops env_debug [RNew 5; RDowngrade 0; RMakeMut 0 6]),
    (rworld env_debug [RNew 5; RDowngrade 0; RMakeMut 0 6]), _.
  split; [by apply rdemo_reached|]. split; by vm_compute.
Qed.

(** * C52 *)

Lemma p_C52_get_mut_exclusive : forall (EN : Env) (T : Type) (EL : Elem T) w0 ops tab d
    (w : world (rcbox T)) i y x s,
  rc_reached w0 ops tab d w -> rexec (RGetMut i y) (tab, (d, w)) = (Ret (RMaybe (Some x)), s) ->
  exists p, tab !! i = Some (Some (HRc p)) /\
    (forall j h, tab !! j = Some h -> target h = Some (sp_ptr p) -> j = i) /\
    fst s = tab /\ reads i (tab, (d, w)) = Ret (RGot x) /\ reads i s = Ret (RGot y) /\
    (forall j, j <> i -> reads j s = reads j (tab, (d, w))) /\
    (forall b, sp_ptr p <> Blk b -> heap (snd (snd s)) !! b = heap w !! b).
Proof.
  intros EN T EL w0 ops tab d w i y x s Hre E.
  destruct (rc_reached_inv _ _ _ _ _ Hre) as (Hinv&->&_&_).
  destruct (rc_or tab i) as [[p Hp]|Hp].
  2: { unfold rexec in E. rewrite with_rc_other in E by done. done. }
  destruct (inv_get _ tab w i p Hinv Hp) as (b&n&v&Eb&_&_&Hbox&Hok&Hlive).
  unfold rexec in E. erewrite with_rc_some in E by done.
  assert (Hg : rc_get_mut p y ([], w) = if (n =? 1) && (weaks b tab =? 0)
    then bind (rc_replace p y) (fun x => ret (Some x)) ([], w) else (Ret None, ([], w))).
  { unfold rc_get_mut. erewrite bind_Ret by (by eapply rc_inner_ok). unfold is_single_ref. simpl.
    by destruct ((n =? 1) && (weaks b tab =? 0)). }
  destruct ((n =? 1) && (weaks b tab =? 0)) eqn:Es.
  2: { erewrite bind_Ret in E by (apply on_snd_Ret; exact Hg). done. }
  apply andb_prop in Es as [E1 E2]. apply N.eqb_eq in E1, E2. subst n.
  destruct v as [x'|].
  2: { erewrite bind_UB in E; [done|]. apply on_snd_Ret. rewrite Hg.
       by erewrite bind_UB by (by eapply rc_replace_moved). }
  erewrite bind_Ret in E.
  2: { apply on_snd_Ret. rewrite Hg. erewrite bind_Ret by (by eapply rc_replace_ok). reflexivity. }
  injection E as -> <-. exists p.
  assert (Hone : rcs b tab = 1) by (destruct Hok as [?|[[? ?]|?]]; [done|lia|lia]).
  assert (Hex : forall j h, tab !! j = Some h -> target h = Some (sp_ptr p) -> j = i).
  { intros j h Hj Ht. destruct (decide (j = i)) as [|Hne]; [done|exfalso]. rewrite Eb in Ht.
    destruct h as [[q|[q|]]|]; try done; injection Ht as Ht.
    - assert (2 <= cnt (is_rc b) tab); [|unfold rcs in Hone; lia].
      eapply (cnt_two _ _ j i); try done; simpl; by apply bool_decide_eq_true_2.
    - assert (1 <= cnt (is_weak b) tab); [|unfold weaks in E2; lia].
      eapply cnt_lookup; [done|]. simpl. by apply bool_decide_eq_true_2. }
  split_and!; try done.
  - by eapply reads_rc.
  - eapply reads_rc; [done|done|by eapply box_at_setb].
  - intros j Hne. unfold reads, rexec. destruct (rc_or tab j) as [[q Hq]|Hq].
    2: { by rewrite !with_rc_other. }
    erewrite !with_rc_some by done.
    destruct (inv_get _ tab w j q Hinv Hq) as (b'&n'&v'&Eb'&_&_&Hbox'&_&_).
    assert (b' <> b) by (intros ->; apply Hne; eapply Hex; [done|]; simpl; congruence).
    assert (Hbox2 : box_at (setb b (RcBox 1 (weaks b tab) (Val y)) w) b' (RcBox n' (weaks b' tab) v')).
    { by apply box_at_setb_ne. }
    destruct v' as [z|].
    + erewrite bind_Ret by (apply on_snd_Ret; by eapply rc_as_ref_ok).
      by erewrite bind_Ret by (apply on_snd_Ret; by eapply rc_as_ref_ok).
    + erewrite bind_UB by (apply on_snd_Ret; by eapply rc_as_ref_moved).
      by erewrite bind_UB by (apply on_snd_Ret; by eapply rc_as_ref_moved).
  - intros b' Hb'. apply setb_other. congruence.
Qed.
Lemma x_C52_get_mut_exclusive_ex :
  @rc_reached env_debug N num_drop wr_start ops_rc (rtab env_debug ops_rc) (rdrops env_debug ops_rc)
    (rworld env_debug ops_rc) /\
  fst (@rexec env_debug N num_drop (RGetMut 3 9) (snd (rdemo env_debug ops_rc))) = Ret (RMaybe (Some 8)) /\
  fst (@rexec env_debug N num_drop (RGetMut 0 9) (snd (rdemo env_debug ops_rc))) = Ret (RMaybe None).
Proof. split; [by apply rdemo_reached|by split; vm_compute]. Qed.

(** * C53 *)

(** In a history that orphans no value: the result is the value itself (only handle) or its clone;
    it is what this handle shows after the write, and no other handle changes. *)
Lemma p_C53_make_mut_partial : forall (EN : Env) (T : Type) (EL : Elem T) w0 ops st tab d
    (w : world (rcbox T)) i c x x' y,
  rc_follows w0 ops st tab d w -> s_tab st !! i = Some (Some (SRc c)) -> s_cells st !! c = Some (Some x) ->
  (strong_of st c = 1 -> weak_of st c = 0) -> t_clone x = Some x' ->
  (forall n k, e_aok n k = true) -> is_Some (cur_scope w0) ->
  exists s, rexec (RMakeMut i y) (tab, (d, w)) =
      (Ret (RGot (if strong_of st c =? 1 then x else x')), s) /\
    reads i s = Ret (RGot y) /\ (forall j, j <> i -> reads j s = reads j (tab, (d, w))) /\
    length (fst s) = length tab /\ fst (snd s) = [].
Proof.
  intros EN T EL w0 ops st tab d w i c x x' y Hfo Hi Hx Hno Hcl Hok Hsc. pose proof Hfo as (_&Hl&_).
  destruct (rc_follows_R _ _ _ _ _ _ Hfo) as (HR&->&Hcur&Hlt).
  destruct (step_refines _ st tab w (RMakeMut i y) HR) as (r&o&st'&tab'&w'&E&Es&HR'&_&_&Hal&_); [|lia|].
  { intros (k&c'&[?|[?|[y' [= -> ->]]]]&Hc'&E1&E2); try done.
    assert (c' = c) as -> by congruence. by apply E2, Hno. }
  rewrite Hal in Es by (by split; [|rewrite Hcur]).
  exists (tab', ([], w')). rewrite E. simpl in Es. rewrite Hi, Hx, Hcl in Es.
  assert (Hil : (i < length (s_tab st))%nat) by (by eapply lookup_lt_Some).
  assert (Hcl' : (c < length (s_cells st))%nat) by (by eapply lookup_lt_Some).
  assert (exists c2, s_tab st' !! i = Some (Some (SRc c2)) /\ s_cells st' !! c2 = Some (Some y) /\
    (forall j, j <> i -> s_tab st' !! j = s_tab st !! j) /\
    (forall j c', j <> i -> s_tab st !! j = Some (Some (SRc c')) -> s_cells st' !! c' = s_cells st !! c') /\
    o = Ret (RGot (if strong_of st c =? 1 then x else x')) /\ length (s_tab st') = length (s_tab st))
    as (c2&Hi2&Hy&Hj&Hcj&->&Hlen).
  { destruct (strong_of st c =? 1) eqn:E1.
    - rewrite (Hno (proj1 (N.eqb_eq _ _) E1)) in Es. simpl in Es. injection Es as <- <-.
      exists c. simpl. rewrite list_lookup_insert by done. split_and!; try done.
      intros j c' Hne Hc'. assert (c' <> c); [|by rewrite list_lookup_insert_ne].
      intros ->. apply N.eqb_eq in E1.
      assert (2 <= cnt (fun h => bool_decide (h = Some (SRc c))) (s_tab st)); [|unfold strong_of in E1; lia].
      eapply (cnt_two _ _ j i); try done; by apply bool_decide_eq_true_2.
    - injection Es as <- <-. exists (length (s_cells st)). simpl.
      rewrite list_lookup_insert, lookup_app_r, Nat.sub_diag, insert_length by (done || lia). split_and!; try done.
      + intros j Hne. by rewrite list_lookup_insert_ne.
      + intros j c' Hne Hc'. destruct (R_get _ _ _ _ _ _ HR Hc') as (_&x2&_&_&_&Hx2&_).
        rewrite lookup_app_l; [done|]. by eapply lookup_lt_Some. }
  split; [done|]. split_and!.
  - destruct (R_get _ st' tab' w' i c2 HR' Hi2) as (p&x2&Hp&Eb&_&Hx2&Hbox).
    rewrite Hy in Hx2. injection Hx2 as <-. by eapply reads_rc.
  - intros j Hne. eapply (reads_frame _ st st'); try done; [by apply Hj|]. intros c' Hc'. by eapply Hcj.
  - simpl. pose proof HR as (_&_&H1&_). pose proof HR' as (_&_&H2&_).
    apply Forall2_length in H1, H2. lia.
  - done.
Qed.
Lemma x_C53_make_mut_ex :
  @rc_follows env_debug N num_drop wr_start ops_rc st_rc (rtab env_debug ops_rc)
    (rdrops env_debug ops_rc) (rworld env_debug ops_rc) /\
  strong_of st_rc 0 = 2 /\ strong_of st_rc 1 = 1 /\ weak_of st_rc 1 = 0 /\
  fst (rdemo env_debug (ops_rc ++ [RMakeMut 0 6; RRead 0; RRead 5; RMakeMut 3 7; RRead 3])) =
    fst (rdemo env_debug ops_rc) ++
    [Ret (RGot 5); Ret (RGot 6); Ret (RGot 5); Ret (RGot 8); Ret (RGot 7)].
Proof. split; [apply follows_rc|by split_and!; vm_compute]. Qed.

(** The only [Rc] of a value with a [Weak]: [make_mut] panics in a debug build; in a release build
    the [Weak] can still be upgraded, to a value that is not there. *)
Lemma p_C53_make_mut_refuted :
  (exists s, @rexec env_debug N num_drop (RMakeMut 0 6) (snd (rdemo env_debug [RNew 5; RDowngrade 0]))
     = (Panic PArith, s)) /\
  (exists tab d w, @rc_reached env_release N num_drop wr_start
       [RNew 5; RDowngrade 0; RMakeMut 0 6; RWUpgrade 1] tab d w /\
     target <$> (tab !! 2%nat) = Some (Some (Blk 0)) /\
     @reads env_release N num_drop 0 (tab, (d, w)) = Ret (RGot 6) /\ @reads env_release N num_drop 2 (tab, (d, w)) = UB UseAfterMove).
Proof.
  split; [eexists; by vm_compute|].
  exists (rtab env_release [RNew 5; RDowngrade 0; RMakeMut 0 6; RWUpgrade 1]),
    (rdrops env_release [RNew 5; RDowngrade 0; RMakeMut 0 6; RWUpgrade 1]),
    (rworld env_release [RNew 5; RDowngrade 0; RMakeMut 0 6; RWUpgrade 1]).
  split; [by apply rdemo_reached|]. by vm_compute.
Qed.

(** * C54 *)

(** [try_unwrap] gives the value only when no other [Rc] exists; otherwise nothing changes. *)
Lemma p_C54_try_unwrap_partial : forall (EN : Env) (T : Type) (EL : Elem T) w0 ops tab d
    (w : world (rcbox T)) i p,
  rc_reached w0 ops tab d w -> tab !! i = Some (Some (HRc p)) ->
  (exists x s, rexec (RTryUnwrap i) (tab, (d, w)) = (Ret (RMaybe (Some x)), s) /\
     reads i (tab, (d, w)) = Ret (RGot x) /\ live_rcs (sp_ptr p) tab = 1 /\
     fst s = <[i := None]> tab /\
     (forall j, j <> i -> reads j s = reads j (tab, (d, w)))) \/
  rexec (RTryUnwrap i) (tab, (d, w)) = (Ret (RMaybe None), (tab, (d, w))) \/
  (exists s, rexec (RTryUnwrap i) (tab, (d, w)) = (UB UseAfterMove, s) /\
     reads i (tab, (d, w)) = UB UseAfterMove).
Proof.
  intros EN T EL w0 ops tab d w i p Hre Hp.
  destruct (rc_reached_inv _ _ _ _ _ Hre) as (Hinv&->&_&_).
  destruct (inv_get _ tab w i p Hinv Hp) as (b&n&v&Eb&_&_&Hbox&Hok&Hlive).
  destruct (N.eqb_spec n 1) as [->|Hn].
  2: { right. left. unfold rexec. erewrite with_rc_some by done.
       erewrite bind_Ret; cycle 1.
       { apply on_snd_Ret. unfold rc_try_unwrap.
         erewrite bind_Ret by (by eapply rc_strong_count_ok). simpl.
         rewrite (proj2 (N.eqb_neq _ _) Hn). reflexivity. }
       reflexivity. }
  destruct v as [x|].
  2: { right. right. eexists. split.
       - unfold rexec. erewrite with_rc_some by done. erewrite bind_UB; [reflexivity|].
         apply on_snd_Ret. unfold rc_try_unwrap.
         erewrite bind_Ret by (by eapply rc_strong_count_ok). simpl.
         erewrite bind_Ret by (by eapply rc_inner_ok). reflexivity.
       - unfold reads, rexec. erewrite with_rc_some by done.
         by erewrite bind_UB by (apply on_snd_Ret; by eapply rc_as_ref_moved). }
  left. assert (Hone : rcs b tab = 1) by (destruct Hok as [?|[[? ?]|?]]; [done|lia|lia]).
  set (w' := setb b (RcBox 1 (weaks b tab) Moved) w).
  exists x, (<[i := None]> tab, ([], w')). split; [|split; [|split; [|split]]].
  - unfold rexec. erewrite with_rc_some by done. erewrite (bind_Ret _ _ _ (Some x)); cycle 1.
    { apply on_snd_Ret. unfold rc_try_unwrap.
      erewrite bind_Ret by (by eapply rc_strong_count_ok). simpl.
      erewrite bind_Ret by (by eapply rc_inner_ok). simpl. rewrite bind_ret.
      erewrite bind_Ret by (by eapply rc_set_ok).
      erewrite bind_Ret by (eapply rc_drop_ok; [done|by eapply box_at_setb|simpl; lia]).
      simpl. rewrite setb_setb. reflexivity. }
    reflexivity.
  - by eapply reads_rc.
  - rewrite Eb. exact Hone.
  - done.
  - intros j Hne. unfold reads, rexec. destruct (rc_or tab j) as [[q Hq]|Hq].
    2: { rewrite !with_rc_other; [done|done|]. intros q. by rewrite list_lookup_insert_ne. }
    assert (Hq' : <[i := None]> tab !! j = Some (Some (HRc q))) by (by rewrite list_lookup_insert_ne).
    erewrite (with_rc_some _ _ tab) by done. erewrite with_rc_some by done.
    destruct (inv_get _ tab w j q Hinv Hq) as (b'&n'&v'&Eb'&_&_&Hbox'&_&_).
    assert (b' <> b).
    { intros ->. assert (2 <= cnt (is_rc b) tab); [|unfold rcs in Hone; lia].
      eapply (cnt_two _ _ j i); try done; simpl; by apply bool_decide_eq_true_2. }
    assert (Hbox2 : box_at w' b' (RcBox n' (weaks b' tab) v')) by (by apply box_at_setb_ne).
    destruct v' as [z|].
    + erewrite bind_Ret by (apply on_snd_Ret; by eapply rc_as_ref_ok).
      by erewrite bind_Ret by (apply on_snd_Ret; by eapply rc_as_ref_ok).
    + erewrite bind_UB by (apply on_snd_Ret; by eapply rc_as_ref_moved).
      by erewrite bind_UB by (apply on_snd_Ret; by eapply rc_as_ref_moved).
Qed.
Lemma x_C54_try_unwrap_ex :
  @rc_reached env_debug N num_drop wr_start ops_rc (rtab env_debug ops_rc) (rdrops env_debug ops_rc)
    (rworld env_debug ops_rc) /\
  fst (@rexec env_debug N num_drop (RTryUnwrap 3) (snd (rdemo env_debug ops_rc))) = Ret (RMaybe (Some 8)) /\
  fst (@rexec env_debug N num_drop (RTryUnwrap 0) (snd (rdemo env_debug ops_rc))) = Ret (RMaybe None).
Proof. split; [by apply rdemo_reached|by split; vm_compute]. Qed.
(** In a history that orphans no value, it gives the value whenever no other [Rc] exists, and no
    handle to the value is left. *)
Lemma p_C54_try_unwrap_exact_partial : forall (EN : Env) (T : Type) (EL : Elem T) w0 ops st tab d
    (w : world (rcbox T)) i c x p,
  rc_follows w0 ops st tab d w -> s_tab st !! i = Some (Some (SRc c)) -> s_cells st !! c = Some (Some x) ->
  tab !! i = Some (Some (HRc p)) ->
  (strong_of st c = 1 -> weak_of st c = 0 -> exists s,
     rexec (RTryUnwrap i) (tab, (d, w)) = (Ret (RMaybe (Some x)), s) /\
     (forall j h, fst s !! j = Some h -> target h <> Some (sp_ptr p))) /\
  (strong_of st c <> 1 -> rexec (RTryUnwrap i) (tab, (d, w)) = (Ret (RMaybe None), (tab, (d, w)))).
Proof.
  intros EN T EL w0 ops st tab d w i c x p Hfo Hi Hx Hp. pose proof Hfo as (_&Hl&_).
  destruct (rc_follows_R _ _ _ _ _ _ Hfo) as (HR&->&_&Hlt).
  destruct (R_get _ _ _ _ _ _ HR Hi) as (p'&x'&Hp'&Eb&Hlive&Hx'&Hbox).
  assert (p' = p) as -> by congruence. assert (x' = x) as -> by congruence. split.
  - intros E1 E2.
    destruct (step_refines _ st tab w (RTryUnwrap i) HR) as (r&o&st'&tab'&w'&E&Es&HR'&_); [|lia|].
    { intros (k&c'&[?|[[= ->]|[? ?]]]&Hc'&_&?); try done. assert (c' = c) as -> by congruence. done. }
    exists (tab', ([], w')). rewrite E. simpl in Es. rewrite Hi, Hx, E1 in Es.
    change (1 =? 1) with true in Es. injection Es as <- <-. split; [done|].
    pose proof HR' as (_&_&Ht&_). intros j h Hj Htg. rewrite Eb in Htg.
    destruct (Forall2_lookup_r _ _ _ _ _ Ht Hj) as (h'&Hh'&Hco). simpl in Hh'.
    assert (Hne : j <> i).
    { intros ->. rewrite list_lookup_insert in Hh' by (by eapply lookup_lt_Some).
      injection Hh' as <-. by destruct h. }
    rewrite list_lookup_insert_ne in Hh' by done.
    destruct h as [[q|[q|]]|]; try done; destruct h' as [[c'|[c'|]]|]; try done; simpl in Hco, Htg;
      injection Htg as Htg; assert (c' = c) as -> by (rewrite Hco in Htg; injection Htg; lia).
    + assert (2 <= cnt (fun h => bool_decide (h = Some (SRc c))) (s_tab st)); [|unfold strong_of in E1; lia].
      eapply (cnt_two _ _ j i); try done; by apply bool_decide_eq_true_2.
    + assert (1 <= cnt (fun h => bool_decide (h = Some (SWeak (Some c)))) (s_tab st)); [|unfold weak_of in E2; lia].
      eapply cnt_lookup; [done|]. by apply bool_decide_eq_true_2.
  - intros E1. unfold rexec. erewrite with_rc_some by done. erewrite bind_Ret; cycle 1.
    { apply on_snd_Ret. unfold rc_try_unwrap.
      erewrite bind_Ret by (by eapply rc_strong_count_ok). simpl.
      rewrite (proj2 (N.eqb_neq _ _) E1). reflexivity. }
    reflexivity.
Qed.
Lemma x_C54_try_unwrap_exact_ex :
  @rc_follows env_debug N num_drop wr_start ops_rc st_rc (rtab env_debug ops_rc)
    (rdrops env_debug ops_rc) (rworld env_debug ops_rc) /\
  s_tab st_rc !! 3%nat = Some (Some (SRc 1)) /\ strong_of st_rc 1 = 1 /\ weak_of st_rc 1 = 0.
Proof. split; [apply follows_rc|by split_and!; vm_compute]. Qed.
(** With a [Weak]: it can be upgraded afterwards and shows a value that is not there.  And a value
    that was orphaned and upgraded again is not given out although it has one [Rc]. *)
Lemma p_C54_try_unwrap_refuted :
  (exists tab d w, @rc_reached env_debug N num_drop wr_start
       [RNew 5; RDowngrade 0; RTryUnwrap 0; RWUpgrade 1] tab d w /\
     target <$> (tab !! 2%nat) = Some (Some (Blk 0)) /\ @reads env_debug N num_drop 2 (tab, (d, w)) = UB UseAfterMove) /\
  (exists tab d w, @rc_reached env_debug N num_drop wr_start ops_back tab d w /\
     live_rcs (Blk 0) tab = 1 /\ target <$> (tab !! 2%nat) = Some (Some (Blk 0)) /\
     fst (@rexec env_debug N num_drop (RTryUnwrap 2) (tab, (d, w))) = Ret (RMaybe None)) /\
  (exists tab d w, @rc_reached env_debug N num_drop wr_start [RNew 5; RTryUnwrap 0] tab d w /\
     tab = [None] /\ is_Some (heap w !! 0)).
Proof.
  split_and!.
  - exists (rtab env_debug [RNew 5; RDowngrade 0; RTryUnwrap 0; RWUpgrade 1]),
      (rdrops env_debug [RNew 5; RDowngrade 0; RTryUnwrap 0; RWUpgrade 1]),
      (rworld env_debug [RNew 5; RDowngrade 0; RTryUnwrap 0; RWUpgrade 1]).
    split; [by apply rdemo_reached|]. by vm_compute.
  - exists (rtab env_debug ops_back), (rdrops env_debug ops_back), (rworld env_debug ops_back).
    split; [by apply rdemo_reached|]. by vm_compute.
  - exists (rtab env_debug [RNew 5; RTryUnwrap 0]), (rdrops env_debug [RNew 5; RTryUnwrap 0]),
      (rworld env_debug [RNew 5; RTryUnwrap 0]).
    split; [by apply rdemo_reached|]. split; [by vm_compute|]. vm_compute. by eexists.
Qed.
