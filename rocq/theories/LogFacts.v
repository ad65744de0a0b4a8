(** Proofs of the statements collected in PropertiesLog.v: the allocator log of [SmallVec] and
    [String] histories. *)
From Verif Require Export LogProofs2 SmallFacts StrFacts.
Local Existing Instance u8.

(** * C107 *)

(** A [SmallVec] with any history, then dropped: the allocator log is one a monitor accepts (every
    release and resize names a live block, the allocator it came from and its layout).  No restriction
    on arguments, sizes, scopes or destructors. *)
Lemma p_C107_small_log : forall (EN : Env) (T : Type) (EL : Elem T) (Cap : N) (w : world T) ops outs s w1 r2 w2,
  fresh_ids w -> srun Cap ops (sv_new Cap, w) = (outs, (s, w1)) -> sv_drop_val s w1 = (r2, w2) ->
  (exists evs, events w1 = events w ++ evs /\ replay (live_blocks w) evs = Some (live_blocks w1)) /\
  (exists evs, events w2 = events w ++ evs /\ replay (live_blocks w) evs = Some (live_blocks w2)).
Proof.
  intros EN T EL Cap w ops outs s w1 r2 w2 Hf He Hd.
  pose proof (logged_start w Hf) as Hs.
  pose proof (logged_srun (live_blocks w) (events w) Cap ops (sv_new Cap, w) Hs) as Hs1. rewrite He in Hs1.
  pose proof (pres_sv_drop_val (live_blocks w) (events w) s w1 Hs1) as Hs2. rewrite Hd in Hs2.
  split; [by destruct Hs1|by destruct Hs2].
Qed.
(** When no call is undefined and destructors do not panic, the log of the whole life of the vector
    leaves exactly the blocks that were live before it: all memory went back. *)
Lemma p_C107_small_balanced : forall (EN : Env) (T : Type) (EL : Elem T) (Cap : N) (w : world T) ops outs s w1,
  0 < t_size -> no_drop_panic -> wok w -> Cap * t_size <= isize_max + 1 - t_align ->
  (total_sdemand ops + 8) * t_size <= isize_max + 1 - t_align ->
  srun Cap ops (sv_new Cap, w) = (outs, (s, w1)) -> Forall (fun o => defined o.2) outs ->
  exists w2 evs, sv_drop_val s w1 = (Ret tt, w2) /\ events w2 = events w ++ evs /\
    replay (live_blocks w) evs = Some (live_blocks w).
Proof.
  intros EN T EL Cap w ops outs s w1 Hz Hnd Hw HC Hf He Hd.
  destruct (p_C33_small_ledger_partial EN T EL Cap w ops outs s w1 Hz Hnd Hw HC Hf He Hd)
    as (w2&_&_&_&_&_&Hdr&Hh&_).
  destruct (p_C107_small_log EN T EL Cap w ops outs s w1 _ w2 (proj2 Hw) He Hdr) as [_ (evs&Hev&Hrp)].
  exists w2, evs. split; [done|]. split; [done|]. rewrite Hrp. unfold live_blocks. by rewrite Hh.
Qed.
(** The same for strings, however they were made. *)
Lemma p_C107_string_log : forall (EN : Env) (w : world N) v0 w0 ops outs v w1 r2 w2,
  fresh_ids w ->
  (str_new w = (Ret v0, w0) \/
   (exists n, str_with_capacity n w = (Ret v0, w0)) \/
   (exists us, str_from_utf16 us w = (Ret (Some v0), w0)) \/
   (exists b0 wa vops vouts b wb, vec_new w = (Ret b0, wa) /\ vrun vops (b0, wa) = (vouts, (b, wb)) /\
      str_from_utf8 b wb = (Ret (Some v0), w0))) ->
  trun ops (v0, w0) = (outs, (v, w1)) -> vec_drop_val v w1 = (r2, w2) ->
  (exists evs, events w1 = events w ++ evs /\ replay (live_blocks w) evs = Some (live_blocks w1)) /\
  (exists evs, events w2 = events w ++ evs /\ replay (live_blocks w) evs = Some (live_blocks w2)).
Proof.
  intros EN w v0 w0 ops outs v w1 r2 w2 Hf Hmk He Hd.
  pose proof (logged_start w Hf) as Hs.
  assert (logged (live_blocks w) (events w) w0) as Hs0.
  { destruct Hmk as [H|[(n&H)|[(us&H)|(b0&wa&vops&vouts&b&wb&H1&H2&H3)]]].
    - pose proof (pres_new (live_blocks w) (events w) w Hs) as Hp. unfold str_new in H. by rewrite H in Hp.
    - pose proof (pres_with_capacity (live_blocks w) (events w) n w Hs) as Hp. unfold str_with_capacity in H.
      by rewrite H in Hp.
    - pose proof (pres_from_utf16 (live_blocks w) (events w) us w Hs) as Hp. by rewrite H in Hp.
    - pose proof (pres_new (live_blocks w) (events w) w Hs) as Hp. rewrite H1 in Hp.
      pose proof (logged_vrun (live_blocks w) (events w) vops (b0, wa) Hp) as Hp2. rewrite H2 in Hp2.
      pose proof (pres_from_utf8 (live_blocks w) (events w) b wb Hp2) as Hp3. by rewrite H3 in Hp3. }
  pose proof (logged_trun (live_blocks w) (events w) ops (v0, w0) Hs0) as Hs1. rewrite He in Hs1.
  pose proof (pres_vec_drop_val (live_blocks w) (events w) v w1 Hs1) as Hs2. rewrite Hd in Hs2.
  split; [by destruct Hs1|by destruct Hs2].
Qed.
(** A string made by [new] and used by calls none of which is undefined or goes through
    [as_mut_vec]: dropping it leaves exactly the blocks that were live before. *)
Lemma p_C107_string_balanced : forall (EN : Env) (w : world N) v0 w0 ops outs v w1,
  wok w -> str_new w = (Ret v0, w0) -> N.max (2 * (vcap v0 + total_tdemand ops)) 8 <= isize_max ->
  Forall args_ok ops -> Forall not_mut ops -> trun ops (v0, w0) = (outs, (v, w1)) -> Forall defined outs ->
  exists w2 evs, vec_drop_val v w1 = (Ret tt, w2) /\ events w2 = events w ++ evs /\
    replay (live_blocks w) evs = Some (live_blocks w).
Proof.
  intros EN w v0 w0 ops outs v w1 Hw Hn Hf Ha Hm He Hd.
  destruct (begins_strep w v0 w0 Hw (begins_new _ _ _ Hn)) as (cs0&Hs0&Hv0).
  pose proof (strep_cap _ _ _ Hs0) as [Hc0 _].
  destruct (trun_ok ops (vcap v0) w0 v0 cs0 Hs0) as (outs'&v'&w'&Hrun'&Hcase); try done; [clear -Hf; lia|].
  rewrite He in Hrun'. injection Hrun' as <- <- <-.
  destruct Hcase as [(cs'&Htr&Hs'&Hv'&_)|(pre&op&post&outs'&cs'&u&_&Ho&_)].
  2: { by eapply defined_no_ub in Ho. }
  destruct Hs' as (bs'&Ht'&Hr').
  destruct (vec_drop_val_gone z8 w1 v bs' Hr' nd8) as (w2&Hdr&Hg). pose proof Hg as (Hg1&_).
  destruct (p_C107_string_log EN w v0 w0 ops outs v w1 _ w2 (proj2 Hw) (or_introl Hn) He Hdr) as [_ (evs&Hev&Hrp)].
  exists w2, evs. split; [done|]. split; [done|]. rewrite Hrp. unfold live_blocks. rewrite Hg1.
  by rewrite Hv', Hv0.
Qed.
Lemma x_C107_small_ex :
  let ops := [SPush 1; SPush 2; SMoveToHeap; SSetScope 9; SPush 3; SPush 4; SReserve 9; SPush 5; SSetScope 7; SPop] in
  let st := @sdemo env_debug N num_drop 4 w_start ops in
  wok w_start /\ fresh_ids w_start /\ @no_drop_panic N num_drop /\
  forallb definedb (snd <$> @sdemo_outs env_debug N num_drop 4 w_start ops) = true /\
  events (snd (@sv_drop_val N num_drop (fst st) (snd st))) =
    [EvSelect 7 (Selector MNone 2); EvAlloc 7 (Layout 32 8) (Some 1);
     EvRealloc 7 1 (Layout 32 8) 104 (Some 2); EvDealloc 7 2 (Layout 104 8)].
Proof.
  split; [apply w_start_ok|]. split; [apply w_start_ok|]. split; [by intros ?|]. split; [by vm_compute|].
  vm_compute. reflexivity.
Qed.
Lemma x_C107_string_ex :
  let ops := [TPushStr [97; 233]; TReserve 20; TShrinkToFit; TInsertStr 1 [8364]; TSetScope 9; TSplitOff 1] in
  let st := @tdemo env_debug w_start ops in
  wok w_start /\ fresh_ids w_start /\ Forall args_ok ops /\ Forall not_mut ops /\
  forallb definedb (@tdemo_outs env_debug w_start ops) = true /\
  events (snd (vec_drop_val (fst st) (snd st))) =
    [EvSelect 7 (Selector MNone 8); EvSelect 7 (Selector MNone 8); EvAlloc 7 (Layout 3 1) (Some 1);
     EvRealloc 7 1 (Layout 3 1) 23 (Some 2); EvRealloc 7 2 (Layout 23 1) 3 (Some 3);
     EvRealloc 7 3 (Layout 3 1) 8 (Some 4); EvSelect 9 (Selector MNone 8);
     EvAlloc 9 (Layout 5 1) (Some 5); EvDealloc 9 5 (Layout 5 1); EvDealloc 7 4 (Layout 8 1)].
Proof.
  split; [apply w_start_ok|]. split; [apply w_start_ok|]. split; [by args|]. split; [by args|].
  split; [by vm_compute|]. vm_compute. reflexivity.
Qed.
