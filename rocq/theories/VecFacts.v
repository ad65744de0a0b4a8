(** Proofs of the statements collected in PropertiesPtr.v and PropertiesVec.v. *)
From Verif Require Export Witness.
From Coq Require Import ZifyBool ZifyNat ZifyN.

(** * C01 *)

(** Elements without a destructor: the box lives in memory of the selected allocator, shows the
    value, and releases exactly that memory, whatever else happened in between. *)
Lemma p_C01_box_partial : forall (EN : Env) (T : Type) (EL : Elem T) (w : world T) x m sc,
  0 < t_size -> t_needs_drop = false -> cur_scope w = Some sc ->
  e_aok (ncalls w) t_size = true ->
  let a := e_alloc_for sc (Selector m t_name) in
  let l := Layout t_size t_align in
  exists p b w1, box_new_with x m w = (Ret p, w1) /\
    sp_deref p w1 = (Ret x, w1) /\
    (fresh_ids w -> heap w !! b = None) /\
    heap w1 = <[b := Block a l [Some x]]> (heap w) /\
    events w1 = events w ++ [EvSelect sc (Selector m t_name); EvAlloc a l (Some b)] /\
    drops w1 = drops w /\
    forall w2, heap w2 !! b = heap w1 !! b ->
      sp_deref p w2 = (Ret x, w2) /\
      exists w3, fst (box_drop p w2) = (if t_needs_drop && t_drop_panics x then Panic PDrop else Ret tt) /\
        snd (box_drop p w2) = w3 /\
        heap w3 = delete b (heap w2) /\ drops w3 = drops w2 ++ [x] /\
        events w3 = events w2 ++ [EvDealloc a b l].
Proof.
  intros EN T EL w x m sc Hz Hd Hs Ha a l.
  eexists _, (next_id w), _. rewrite (box_new_ok Hz w x m sc Hs Hd Ha). split; [reflexivity|].
  fold a l. cbn [heap events drops].
  assert (forall w2, heap w2 !! next_id w = Some (box_block a x) ->
    box_at w2 (SPtr (Blk (next_id w)) 1 a m) (next_id w) x) as Hbox.
  { intros w2 H. split_and!; [done|done|]. exact H. }
  split_and!; try done.
  - apply (box_deref Hz _ _ (next_id w)). apply Hbox. simpl. by rewrite lookup_insert.
  - intros Hf. apply Hf. lia.
  - intros w2 H2. simpl in H2. rewrite lookup_insert in H2. specialize (Hbox w2 H2).
    split; [by apply (box_deref Hz _ _ (next_id w))|]. eexists.
    rewrite (box_drop_ok Hz w2 _ _ x Hbox) by (by rewrite Hd). simpl.
    split_and!; try done. by rewrite Hd.
Qed.
Lemma x_C01_box_ex :
  @t_needs_drop N num = false /\ cur_scope w_start = Some 7 /\
  @e_aok env_debug (ncalls w_start) (@t_size N num) = true /\
  exists p w1, @box_new_with env_debug N num 42 (MType 3) w_start = (Ret p, w1) /\ sp_alloc p = 110.
Proof. split_and!; try done. eexists _, _. split; vm_compute; reflexivity. Qed.

(** Every successful allocation of a box for a type with drop glue runs a destructor on
    uninitialised memory. *)
Lemma p_C01_box_drop_glue_refuted : forall (EN : Env) (T : Type) (EL : Elem T) (w : world T) x m sc,
  0 < t_size -> t_needs_drop = true -> cur_scope w = Some sc ->
  e_aok (ncalls w) t_size = true ->
  fst (box_new_with x m w) = UB UninitDrop.
Proof. intros. by eapply box_new_glue. Qed.
Lemma x_C01_box_drop_glue_ex :
  @t_needs_drop N num_drop = true /\ 0 < @t_size N num_drop /\
  fst (@box_new_with env_release N num_drop 42 MNone w_start) = UB UninitDrop.
Proof. split_and!; done. Qed.

(** Boxing a zero-sized value requests zero bytes from the allocator. *)
Lemma p_C01_box_zst_refuted : forall (EN : Env) (T : Type) (EL : Elem T) (w : world T) x m sc,
  t_size = 0 -> cur_scope w = Some sc -> fst (box_new_with x m w) = UB ZeroSizeAlloc.
Proof. intros. by eapply box_zst. Qed.
Lemma x_C01_box_zst_ex : @t_size unit zst = 0 /\
  fst (@box_new_with env_release unit zst tt MNone wz_start) = UB ZeroSizeAlloc.
Proof. done. Qed.

(** * C02 *)

Lemma p_C02_box_refused : forall (EN : Env) (T : Type) (EL : Elem T) (w : world T) x m sc,
  0 < t_size -> cur_scope w = Some sc -> e_aok (ncalls w) t_size = false ->
  t_drop_panics x = false ->
  exists w', sp_alloc_val x (Selector m t_name) w = (Ret (Err AllocErr), w') /\
    box_new_with x m w = (Panic PUnwrap, w') /\
    heap w' = heap w /\ drops w' = drops w ++ [x].
Proof. intros EN T EL w x m sc Hz. by apply box_refused. Qed.
Lemma x_C02_box_refused_ex :
  cur_scope w_start = Some 7 /\ @e_aok (env_refusing 0) (ncalls w_start) (@t_size N num_drop) = false /\
  fst (@box_new_with (env_refusing 0) N num_drop 42 MNone w_start) = Panic PUnwrap.
Proof. done. Qed.

(** Without an environment nothing is allocated either. *)
Lemma p_C02_box_no_environment : forall (EN : Env) (T : Type) (EL : Elem T) (w : world T) x m,
  0 < t_size -> cur_scope w = None -> t_drop_panics x = false ->
  exists w', box_new_with x m w = (Panic PNoEnv, w') /\ heap w' = heap w /\ drops w' = drops w ++ [x].
Proof. intros EN T EL w x m Hz. by apply box_no_env. Qed.
Lemma x_C02_box_no_environment_ex :
  fst (@box_new_with env_debug N num_drop 42 MNone (set_cur None w_start)) = Panic PNoEnv.
Proof. done. Qed.

(** * C03 *)

(** Whatever live box it is given (the block at its address holds the value, with its layout and
    allocator), [into_inner] uses and releases memory that it has already released. *)
Lemma p_C03_into_inner_refuted : forall (EN : Env) (T : Type) (EL : Elem T) (w : world T) p b x,
  0 < t_size -> sp_ptr p = Blk b -> sp_len p = 1 ->
  heap w !! b = Some (Block (sp_alloc p) (Layout t_size t_align) [Some x]) ->
  fst (box_into_inner p w) = UB UseAfterFree.
Proof. intros EN T EL w p b x Hz H1 H2 H3. by apply (box_into_inner_UB Hz w p b x). Qed.
Lemma x_C03_into_inner_ex : exists p w1,
  @box_new_with env_release N num 42 MNone w_start = (Ret p, w1) /\
  sp_ptr p = Blk 1 /\ sp_len p = 1 /\
  heap w1 !! 1 = Some (Block (sp_alloc p) (Layout 8 8) [Some 42]) /\
  fst (@box_into_inner N num p w1) = UB UseAfterFree.
Proof. eexists _, _. split; [vm_compute; reflexivity|]. split_and!; vm_compute; reflexivity. Qed.

(** * C04 *)

Lemma p_C04_with_capacity : forall (EN : Env) (T : Type) (EL : Elem T) (w : world T) c m,
  0 < t_size -> wok w ->
  exists r w', vec_try_with_capacity_and_marker c m w = (Ret r, w') /\
    (vec_with_capacity_and_marker c m w =
       (match r with Ok v => Ret v | Err _ => Panic PUnwrap end, w')) /\
    match r with
    | Ok v => vcap v = c /\ backed w' v /\ vec_as_slice v w' = (Ret [], w') /\
              delete_ptr (vdata v) (heap w') = heap w /\ c * t_size <= isize_max + 1 - t_align
    | Err CapacityOverflow => isize_max + 1 - t_align < c * t_size /\ w' = w
    | Err AllocErr => heap w' = heap w /\ c * t_size <= isize_max + 1 - t_align /\
                      e_aok (ncalls w) (c * t_size) = false
    end.
Proof.
  intros EN T EL w c m Hz Hw. unfold vec_with_capacity_and_marker.
  destruct (N.leb_spec (c * t_size) limit) as [Hf|Hf].
  - destruct (try_with_capacity_ok Hz w c m Hw Hf) as (r&w'&He&_&_&_&Hw'&Hcase).
    exists r, w'. split; [done|]. split.
    { erewrite bind_Ret by exact He. by destruct r. }
    destruct Hcase as [(v&->&Hr&Hrest&Hc)|(->&Hh&Ha)].
    + split_and!; try done; [by eapply rep_backed|by apply (as_slice_ok Hz)].
    + done.
  - exists (Err CapacityOverflow), w. pose proof (try_with_capacity_big Hz w c m Hf) as He.
    split_and!; try done. by erewrite bind_Ret by exact He.
Qed.
Lemma x_C04_with_capacity_ex : wok w_start /\ exists v w',
  @vec_try_with_capacity_and_marker env_debug N num 5 (MType 3) w_start = (Ret (Ok v), w') /\
  @vcap N num v = 5 /\
  @vec_try_with_capacity_and_marker env_debug N num (2 ^ 61) MNone w_start
    = (Ret (Err CapacityOverflow), w_start).
Proof.
  split; [apply w_start_ok|]. eexists _, _. split; [vm_compute; reflexivity|].
  split; vm_compute; reflexivity.
Qed.

(** Vectors of zero-sized elements always report the largest capacity. *)
Lemma p_C04_with_capacity_zst : forall (EN : Env) (T : Type) (EL : Elem T) (w : world T) c m sc,
  t_size = 0 -> cur_scope w = Some sc ->
  exists v w', vec_try_with_capacity_and_marker c m w = (Ret (Ok v), w') /\
    vcap v = usize_max /\ heap w' = heap w /\ ncalls w' = ncalls w.
Proof.
  intros EN T EL w c m sc Hz Hs. unfold vec_try_with_capacity_and_marker.
  replace ((c =? 0) || (t_size =? 0)) with true by (rewrite Hz; by destruct (c =? 0)).
  unfold vec_with_marker, alloc_for, bind. rewrite Hs. eexists _, _. split; [reflexivity|].
  split_and!; try done. unfold vcap. by rewrite Hz.
Qed.
Lemma x_C04_with_capacity_zst_ex :
  @t_size unit zst = 0 /\ cur_scope wz_start = Some 7.
Proof. done. Qed.

(** * C05 *)

(** The four reservations of a vector. *)
Inductive reservation := RReserve | RReserveExact | RTryReserve | RTryReserveExact.
Definition reserve_call (k : reservation) {T} (n : N) : vop T :=
  match k with
  | RReserve => OReserve n | RReserveExact => OReserveExact n
  | RTryReserve => OTryReserve n | RTryReserveExact => OTryReserveExact n
  end.

(** The capacity asked of the allocator when a vector of length [len] and capacity [cap] has to grow to
    make room for [n] more: at least the smallest capacity and twice the old one, or exactly what is needed. *)
Definition capacity_for (k : reservation) {T} {EL : Elem T} (len cap n : N) : N :=
  match k with
  | RReserve | RTryReserve =>
      N.max (N.max (len + n) (if t_size =? 1 then 8 else if t_size <=? 1024 then 4 else 1)) (cap * 2)
  | _ => len + n
  end.
(** The byte size is above the limit, and nothing notices: the vector has memory already (so the size is
    computed by a plain multiplication), and that multiplication does not panic. *)
Definition unnoticed {EN : Env} {T} {EL : Elem T} (k : reservation) (len cap n : N) : Prop :=
  let bytes := capacity_for k len cap n * t_size in
  0 < cap /\ cap < len + n /\ len + n <= usize_max /\ isize_max + 1 - t_align < bytes /\
  (e_checks = false \/ bytes <= usize_max).

(** Common part of the two statements below. *)
Lemma reserve_total {EN : Env} {T} {EL : Elem T} v (w : world T) xs k n :
  0 < t_size -> rep w v xs ->
  exists r0 r v' w', vexec (reserve_call k n) (v, w) = (r, (v', w')) /\
    reserved w v xs n (capacity_for k (llen xs) (vcap v) n) r0 v' w' /\
    r = match r0 with
        | Ret (Ok _) => match k with RReserve | RReserveExact => Ret RUnit | _ => Ret (RResult (Ok tt)) end
        | Ret (Err e) => match k with RReserve | RReserveExact => Panic PUnwrap | _ => Ret (RResult (Err e)) end
        | Panic p => Panic p | Abort => Abort | UB u => UB u
        end.
Proof.
  intros Hz Hr.
  destruct (try_reserve_total Hz w v xs n Hr) as (ra&va&wa&Ea&Ha).
  destruct (try_reserve_exact_total Hz w v xs n Hr) as (rx&vx&wx&Ex&Hx).
  destruct k; cbn [reserve_call vexec capacity_for].
  1: exists ra; unfold vec_reserve. 2: exists rx; unfold vec_reserve_exact. 3: exists ra. 4: exists rx.
  all: unfold bind; rewrite ?Ea, ?Ex.
  1, 3: destruct ra as [[[]|e]|p| |u]; by eexists _, _, _.
  all: destruct rx as [[[]|e]|p| |u]; by eexists _, _, _.
Qed.

(** For every request that is not [unnoticed], whatever the outcome. *)
Lemma p_C05_reserve_partial : forall (EN : Env) (T : Type) (EL : Elem T) v (w : world T) xs k n,
  0 < t_size -> reached v w xs ->
  ~ unnoticed k (llen xs) (vcap v) n ->
  exists r v' w', vexec (reserve_call k n) (v, w) = (r, (v', w')) /\
    backed w' v' /\ vec_as_slice v' w' = (Ret xs, w') /\
    ((r = Ret RUnit \/ r = Ret (RResult (Ok tt))) /\ llen xs + n <= vcap v' \/
     ((exists p, r = Panic p) \/ exists e, r = Ret (RResult (Err e))) /\ v' = v /\ drops w' = drops w).
Proof.
  intros EN T EL v w xs k n Hz Hre Hno. pose proof (reached_rep Hz v w xs Hre) as Hr.
  destruct (reserve_total v w xs k n Hz Hr) as (r0&r&v'&w'&He&Hres&Er). exists r, v', w'. split; [done|].
  assert (llen xs + n <= capacity_for k (llen xs) (vcap v) n) as Hcap by (clear; destruct k; simpl; lia).
  assert (forall p, r0 = Panic p -> r = Panic p) as Hp by (intros p ->; done).
  assert (forall e, r0 = Ret (Err e) -> (exists p, r = Panic p) \/ exists e, r = Ret (RResult (Err e))) as Hee.
  { intros e ->. destruct k; subst r; eauto. }
  assert (r0 = Ret (Ok tt) -> r = Ret RUnit \/ r = Ret (RResult (Ok tt))) as Hok.
  { intros ->. destruct k; subst r; eauto. }
  destruct Hres as [(_&E0&->&->)|[(_&Hc&E0&->&->)|(Hu&Hlt&Hg)]].
  - split; [by eapply rep_backed|]. split; [by apply as_slice_ok|]. right. split; [eauto|done].
  - split; [by eapply rep_backed|]. split; [by apply as_slice_ok|]. left. auto.
  - destruct Hg as [((_&Hd&_)&Hr'&Hcase)|(H1&H2&H3&_)].
    2: { exfalso. apply Hno. by split_and!. }
    split; [by eapply rep_backed|]. split; [by apply as_slice_ok|]. rewrite app_nil_r in Hd.
    destruct Hcase as [(E0&Hc)|(->&Hcase)].
    + left. split; [auto|]. by rewrite Hc.
    + right. split; [|done]. destruct Hcase as [(E0&_)|[(E0&_)|(E0&_)]]; eauto.
Qed.
Lemma x_C05_reserve_ex :
  @reached env_debug N num (v123 env_debug num) (w123 env_debug num) [1; 2; 3] /\ @no_drop_panic N num /\
  ~ @unnoticed env_debug N num RReserve 3 (@vcap N num (v123 env_debug num)) 40 /\
  ~ @unnoticed env_debug N num RTryReserveExact 3 (@vcap N num (v123 env_debug num)) (2 ^ 63) /\
  fst (@vexec env_debug N num (reserve_call RTryReserveExact (2 ^ 63)) (v123 env_debug num, w123 env_debug num))
    = Panic PArith.
Proof.
  split; [apply reached123|]. split; [by intros|]. split; [|split; [|by vm_compute]].
  - intros (_&_&_&H&_). by vm_compute in H.
  - intros (_&_&_&_&[H|H]); by vm_compute in H.
Qed.

(** Every [unnoticed] request is undefined, or leaves a vector that reports memory it does not have, unless
    the allocator happens to refuse the wrapped size. *)
Lemma p_C05_oversized_refuted : forall (EN : Env) (T : Type) (EL : Elem T) v (w : world T) xs k n,
  0 < t_size -> reached v w xs -> unnoticed k (llen xs) (vcap v) n ->
  exists r v' w', vexec (reserve_call k n) (v, w) = (r, (v', w')) /\
    ((exists u, r = UB u) \/
     ((r = Ret RUnit \/ r = Ret (RResult (Ok tt))) /\ ~ backed w' v') \/
     e_aok (ncalls w) ((capacity_for k (llen xs) (vcap v) n * t_size) mod 2 ^ 64) = false).
Proof.
  intros EN T EL v w xs k n Hz Hre (H0&H1&H2&H3&H4). pose proof (reached_rep Hz v w xs Hre) as Hr.
  destruct (reserve_total v w xs k n Hz Hr) as (r0&r&v'&w'&He&Hres&Er). exists r, v', w'. split; [done|].
  destruct Hres as [(?&_)|[(_&?&_)|(_&_&Hg)]]; [exfalso; clear -H2 H; lia|exfalso; clear -H1 H; lia|].
  destruct Hg as [(_&Hr'&Hcase)|(_&_&_&Hcase)].
  - destruct Hcase as [(E0&Hc)|(->&[(E0&Ha)|[(_&Hc&_)|(_&_&Hc&Hc2&_)]])].
    + exfalso. pose proof (proj2 (rep_cap Hz _ _ _ Hr')) as Hf. unfold fits, limit in Hf. rewrite Hc in Hf.
      clear -Hf H3. lia.
    + right. right. exact Ha.
    + exfalso. clear -H0 Hc. lia.
    + exfalso. rewrite Hc in H4. destruct H4 as [?|H4]; [done|]. clear -H4 Hc2. lia.
  - destruct Hcase as [(u&->)|(->&_&Hb)]; [left; eauto|]. right. left. split; [|done].
    destruct k; subst r; eauto.
Qed.
Lemma x_C05_oversized_ex :
  let st := @demo env_release N num w_start [OPush 1] in
  @reached env_release N num (fst st) (snd st) [1] /\
  @unnoticed env_release N num RTryReserveExact 1 (@vcap N num (fst st)) (2 ^ 61) /\
  @unnoticed env_debug N num RReserve 1 1 (2 ^ 60).
Proof.
  split; [by apply demo_reached; [apply w_start_ok|..]; vm_compute|].
  split; (split; [by vm_compute|]; split; [by vm_compute|]; split; [by vm_compute|]; split; [by vm_compute|]);
    [by left|by right; vm_compute].
Qed.

(** Release build: a vector of one element that asks for 2^61 more gets a block of eight bytes and
    reports room for 2^61+1 elements. *)
Lemma p_C05_reserve_refuted :
  exists (v : vec) (w : world N), @reached env_release N num v w [1] /\
    exists v' w', @vec_try_reserve_exact env_release N num (2 ^ 61) (v, w) = (Ret (Ok tt), (v', w')) /\
      @vcap N num v' = 2 ^ 61 + 1 /\ ~ @backed N num w' v' /\
      exists b blk, vdata v' = Blk b /\ heap w' !! b = Some blk /\ b_layout blk = Layout 8 8.
Proof.
  exists (fst (@demo env_release N num w_start [OPush 1])), (snd (@demo env_release N num w_start [OPush 1])).
  split; [by apply demo_reached; [apply w_start_ok|..]; vm_compute|].
  eexists _, _. split; [vm_compute; reflexivity|]. split; [by vm_compute|]. split.
  - intros [H|(b&blk&Hb&Hl&_&Hlay&_)]; [by vm_compute in H|].
    vm_compute in Hb. injection Hb as <-. vm_compute in Hl. injection Hl as <-.
    by vm_compute in Hlay.
  - eexists _, _. split; [vm_compute; reflexivity|]. split; vm_compute; reflexivity.
Qed.
