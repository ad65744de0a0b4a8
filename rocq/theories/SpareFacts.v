(** Proofs about spare capacity (C88, C89). *)
From Verif Require Export SpareModel SpecCalm CalmFacts.
From Coq Require Import ZifyBool ZifyNat ZifyN.

Section spare.
  Context {EN : Env} {T : Type} {EL : Elem T} (Hz : 0 < t_size).
  Notation W := (world T).
  Implicit Types (w : W) (v : vec) (xs ys : list T) (s : list (option T)).

  Lemma cap_len v : vcap v = sp_len (v_ptr v).
  Proof. unfold vcap. destruct (N.eqb_spec t_size 0); [lia|done]. Qed.

  Lemma spare_ok w v xs rest : v_len v = llen xs -> owns w v ((Some <$> xs) ++ rest) ->
    vec_spare (v, w) = (Ret rest, (v, w)) /\ llen rest = vcap v - llen xs /\ llen xs <= vcap v.
  Proof.
    intros Hl Ho. pose proof Ho as (Hw&Hs&_&Hd). rewrite app_length, fmap_length in Hs. rewrite cap_len.
    split; [|lia]. unfold vec_spare. rewrite bind_get_fst. unfold vec_spare_len. rewrite cap_len, bind_usub by lia.
    destruct (N.eqb_spec (sp_len (v_ptr v) - v_len v) 0) as [E|E].
    { destruct rest; [done|simpl in *; lia]. }
    destruct (vdata v) as [|b] eqn:Hv.
    { apply app_eq_nil in Hd as [Hd ->]. destruct xs; [|done]. simpl in *. lia. }
    destruct Hd as (_&_&Hb). apply on_snd_Ret.
    erewrite copy_out_slots; [|by eexists|simpl; rewrite app_length, fmap_length; lia].
    simpl. rewrite Hl, drop_app_alt by (rewrite fmap_length; lia). by rewrite firstn_all2 by lia.
  Qed.

  Lemma spare_write_ok w v xs rest i x : v_len v = llen xs -> owns w v ((Some <$> xs) ++ rest) -> i < llen rest ->
    exists w', vec_spare_write i x (v, w) = (Ret tt, (v, w')) /\
      owns w' v ((Some <$> xs) ++ <[N.to_nat i := Some x]> rest) /\ keeps v w v w' [] /\ events w' = events w /\ ncalls w' = ncalls w.
  Proof.
    intros Hl Ho Hi. pose proof Ho as (Hw&Hs&_&Hd). rewrite app_length, fmap_length in Hs.
    exists (set_slots (vdata v) ((Some <$> xs) ++ <[N.to_nat i := Some x]> rest) w).
    destruct (owns_set_slots Hz w v ((Some <$> xs) ++ rest) ((Some <$> xs) ++ <[N.to_nat i := Some x]> rest)) as (H1&H2&H3&H4&H5).
    - done.
    - by rewrite !app_length, insert_length.
    - intros [_ ->]%app_eq_nil. simpl in Hi. lia.
    - split_and!; try done.
      + unfold vec_spare_write. rewrite bind_get_fst. unfold vec_spare_len. rewrite cap_len, bind_usub by lia.
        destruct (N.ltb_spec i (sp_len (v_ptr v) - v_len v)); [|lia]. apply on_snd_Ret.
        destruct (vdata v) as [|b] eqn:Hv.
        { apply app_eq_nil in Hd as [_ ->]. simpl in *. lia. }
        destruct Hd as (_&_&Hb).
        erewrite write_at_slots; [|done|by eexists|simpl; rewrite app_length, fmap_length; lia].
        simpl b_slots. f_equal. f_equal. rewrite insert_app_r_alt by (rewrite fmap_length; lia). do 2 f_equal.
        rewrite fmap_length. lia.
      + unfold keeps. rewrite app_nil_r. split_and!; try done. lia.
      + unfold set_slots. destruct (vdata v); [done|]. by destruct (heap w !! b).
      + unfold set_slots. destruct (vdata v); [done|]. by destruct (heap w !! b).
  Qed.

  Lemma spare_writes_ok v xs ys : forall w ys1 rest, v_len v = llen xs ->
    owns w v ((Some <$> xs) ++ (Some <$> ys1) ++ rest) -> llen ys <= llen rest ->
    exists w', vec_spare_writes (llen ys1) ys (v, w) = (Ret tt, (v, w')) /\
      owns w' v ((Some <$> xs) ++ (Some <$> ys1 ++ ys) ++ drop (length ys) rest) /\ keeps v w v w' [] /\ events w' = events w.
  Proof.
    induction ys as [|y ys IH]; intros w ys1 rest Hl Ho Hr; simpl.
    { exists w. rewrite app_nil_r, drop_0. split_and!; try done. apply keeps_refl. }
    destruct rest as [|o rest]; [simpl in Hr; lia|].
    destruct (spare_write_ok w v xs ((Some <$> ys1) ++ o :: rest) (llen ys1) y) as (w1&He&Ho1&Hk&Hev&_); [done|done| |].
    { rewrite app_length, fmap_length. simpl. lia. }
    rewrite Nat2N.id in Ho1. rewrite insert_app_r_alt in Ho1 by (by rewrite fmap_length).
    rewrite fmap_length, Nat.sub_diag in Ho1. simpl in Ho1.
    destruct (IH w1 (ys1 ++ [y]) rest Hl) as (w2&He2&Ho2&Hk2&Hev2).
    { rewrite fmap_app. simpl. by rewrite <-app_assoc. }
    { simpl in Hr. lia. }
    exists w2. split.
    { rewrite (bind_Ret _ _ _ _ _ He). rewrite <-He2. f_equal. rewrite app_length. simpl. lia. }
    rewrite <-app_assoc in Ho2. simpl in Ho2. split; [done|]. split; [by eapply (keeps_trans _ _ _ _ _ _ [] [])|congruence].
  Qed.

  Lemma fill_ok w v xs ys : rep w v xs -> llen xs + llen ys <= vcap v ->
    exists v' w', vec_fill_spare ys (v, w) = (Ret tt, (v', w')) /\ rep w' v' (xs ++ ys) /\ keeps v w v' w' [] /\
      events w' = events w /\ v_ptr v' = v_ptr v.
  Proof.
    intros [Hl [rest Ho]] Hy. destruct (spare_ok w v xs rest Hl Ho) as (_&Hs&_).
    destruct (spare_writes_ok v xs ys w [] rest Hl Ho) as (w'&He&Ho'&Hk&Hev); [lia|].
    exists (Vec (v_ptr v) (llen xs + llen ys)), w'. pose proof Ho' as (_&Hs'&Hb&_).
    rewrite !app_length, fmap_length in Hs'.
    split.
    { unfold vec_fill_spare. erewrite bind_Ret by exact He. rewrite bind_get_fst, Hl.
      assert (Hcap : vcap v <= usize_max).
      { destruct Ho as (_&Hq&Hq2&_). rewrite cap_len, <-Hq. unfold limit, isize_max, usize_max in *. clear -Hq2 Hz. nia. }
      rewrite bind_uadd by (clear -Hy Hcap; lia). unfold vec_set_len. rewrite bind_get_fst, bind_debug_assert; [done|]. clear -Hy. lia. }
    split.
    { split; [simpl; rewrite app_length; lia|]. exists (drop (length ys) rest). rewrite fmap_app, <-app_assoc. exact Ho'. }
    split; [done|]. split; done.
  Qed.

  Context (Cap : N).
  Implicit Types (sv : svec T).

  Lemma sspare_ok w sv xs : srep Cap w sv xs ->
    exists rest, sv_spare Cap (sv, w) = (Ret rest, (sv, w)) /\ llen rest = sv_capacity Cap sv - llen xs /\
      llen xs <= sv_capacity Cap sv /\
      forall i x, i < llen rest -> exists sv' w', sv_spare_write Cap i x (sv, w) = (Ret tt, (sv', w')) /\
        srep Cap w' sv' xs /\ skeeps sv w sv' w' [] /\ events w' = events w /\ sv_marker sv' = sv_marker sv /\
        sv_capacity Cap sv' = sv_capacity Cap sv /\
        sv_spare Cap (sv', w') = (Ret (<[N.to_nat i := Some x]> rest), (sv', w')).
  Proof.
    intros [Hw Hr]. destruct sv as [[k|v] m]; simpl in Hr.
    - destruct Hr as (Hl&Hc&rest&Hs). exists rest.
      pose proof Hc as Hc'. rewrite Hs, app_length, fmap_length in Hc'.
      assert (Hsp : forall k' rest', sk_len k' = llen xs -> sk_slots k' = (Some <$> xs) ++ rest' -> llen rest' = Cap - llen xs ->
        forall w, sv_spare Cap (SVec (Stack k') m, w) = (Ret rest', (SVec (Stack k') m, w))).
      { intros k' rest' Hl' Hs' Hr' w'. unfold sv_spare. rewrite bind_get_fst. unfold sv_spare_len. unfold sv_capacity, sv_len. cbn [sv_store].
        rewrite bind_usub by lia. destruct (N.eqb_spec (Cap - sk_len k') 0).
        { destruct rest'; [done|simpl in *; lia]. }
        simpl. rewrite Hs', Hl', drop_app_alt by (rewrite fmap_length; lia). by rewrite firstn_all2 by lia. }
      split; [apply Hsp; [done|done|lia]|]. unfold sv_capacity; cbn [sv_store]. split; [lia|]. split; [lia|].
      intros i x Hi. set (k' := StackVec (<[N.to_nat (llen xs + i) := Some x]> (sk_slots k)) (sk_len k)).
      assert (Hk' : sk_slots k' = (Some <$> xs) ++ <[N.to_nat i := Some x]> rest).
      { simpl. rewrite Hs, insert_app_r_alt by (rewrite fmap_length; lia). do 2 f_equal. rewrite fmap_length. lia. }
      exists (SVec (Stack k') m), w. split; [|split_and!; try done].
      + unfold sv_spare_write. rewrite bind_get_fst. unfold sv_spare_len. unfold sv_capacity, sv_len. cbn [sv_store].
        rewrite bind_usub by lia. destruct (N.ltb_spec i (Cap - sk_len k)); [|lia].
        unfold sv_write. apply redirect_stack. rewrite (sk_write_eq Hz) by (rewrite Hc; lia). unfold k'. by rewrite <-Hl.
      + split; [done|]. simpl. split_and!; [done|simpl; by rewrite insert_length|]. by exists (<[N.to_nat i := Some x]> rest).
      + apply skeeps_stack0.
      + apply Hsp; [done|done|rewrite insert_length; lia].
    - destruct Hr as [Hl [rest Ho]]. exists rest. destruct (spare_ok w v xs rest Hl Ho) as (He&Hs&Hc).
      assert (Hsp : forall v' w', v_len v' <= vcap v' -> sv_spare Cap (SVec (Heap v') m, w') =
        let '(r, (_, w'')) := vec_spare (v', w') in (r, (SVec (Heap v') m, w''))).
      { intros v' w' Hle. unfold sv_spare, vec_spare. rewrite !bind_get_fst. unfold sv_spare_len, vec_spare_len. unfold sv_capacity, sv_len. cbn [sv_store].
        rewrite !bind_usub by lia. destruct (N.eqb_spec (vcap v' - v_len v') 0); [done|]. simpl. unfold on_snd. simpl.
        by destruct (copy_out _ _ _ _). }
      split. { rewrite Hsp by lia. by rewrite He. }
      split; [done|]. split; [done|]. intros i x Hi.
      destruct (spare_write_ok w v xs rest i x Hl Ho Hi) as (w'&Hw'&Ho'&Hk&Hev&_).
      exists (SVec (Heap v) m), w'. split; [|split_and!; try done].
      + unfold sv_spare_write. rewrite bind_get_fst. unfold sv_spare_len. unfold sv_capacity, sv_len. cbn [sv_store].
        unfold vec_spare_write in Hw'. rewrite bind_get_fst in Hw'. unfold vec_spare_len in Hw'.
        rewrite bind_usub in Hw' by lia. rewrite bind_usub by lia.
        destruct (N.ltb_spec i (vcap v - v_len v)); [|lia].
        unfold sv_write. erewrite redirect_heap; [done|]. rewrite bind_get_fst. exact Hw'.
      + split; [by destruct Ho'|]. simpl. split; [done|]. by eexists.
      + rewrite Hsp by lia. destruct (spare_ok w' v xs _ Hl Ho') as (->&_). done.
  Qed.
End spare.

(** * C88 *)

(** The spare capacity of a vector with any history is the memory between its length and its capacity. *)
Lemma p_C88_spare : forall (EN : Env) (T : Type) (EL : Elem T) v (w : world T) xs,
  0 < t_size -> reached v w xs ->
  exists sp, vec_spare (v, w) = (Ret sp, (v, w)) /\ llen sp = vcap v - llen xs /\ llen xs <= vcap v /\
    vec_spare_len v (v, w) = (Ret (llen sp), (v, w)) /\ vec_is_full v = (llen sp =? 0) /\
    match vdata v with
    | Dangling => xs = [] /\ sp = []
    | Blk b => exists blk, heap w !! b = Some blk /\ b_slots blk = (Some <$> xs) ++ sp
    end.
Proof.
  intros EN T EL v w xs Hz Hre. pose proof (reached_rep Hz _ _ _ Hre) as [Hl [rest Ho]].
  destruct (spare_ok Hz w v xs rest Hl Ho) as (H1&H2&H3). exists rest. split; [done|]. split; [done|]. split; [done|].
  split. { unfold vec_spare_len, usub. rewrite Hl. destruct (N.leb_spec (llen xs) (vcap v)); [|lia]. by rewrite H2. }
  split. { unfold vec_is_full. rewrite Hl. clear -H2 H3. lia. }
  destruct Ho as (_&_&_&Hd). destruct (vdata v) as [|b].
  - apply app_eq_nil in Hd as [Hd ->]. by destruct xs.
  - destruct Hd as (_&_&Hb). by eexists.
Qed.
Lemma x_C88_spare_ex :
  @reached env_debug N num_drop (v123 env_debug num_drop) (w123 env_debug num_drop) [1; 2; 3].
Proof. apply reached123_drop. Qed.

(** Writing a slot changes that slot and nothing else; an index outside panics and changes nothing. *)
Lemma p_C88_write : forall (EN : Env) (T : Type) (EL : Elem T) v (w : world T) xs i x,
  0 < t_size -> reached v w xs ->
  (vcap v - llen xs <= i -> vec_spare_write i x (v, w) = (Panic PIndex, (v, w))) /\
  (i < vcap v - llen xs -> exists sp w', vec_spare (v, w) = (Ret sp, (v, w)) /\
     vec_spare_write i x (v, w) = (Ret tt, (v, w')) /\
     vec_spare (v, w') = (Ret (<[N.to_nat i := Some x]> sp), (v, w')) /\
     vec_as_slice v w' = (Ret xs, w') /\ delete_ptr (vdata v) (heap w') = delete_ptr (vdata v) (heap w) /\
     events w' = events w /\ drops w' = drops w).
Proof.
  intros EN T EL v w xs i x Hz Hre. pose proof (reached_rep Hz _ _ _ Hre) as [Hl [rest Ho]].
  destruct (spare_ok Hz w v xs rest Hl Ho) as (H1&H2&H3). split; intros Hi.
  - unfold vec_spare_write. rewrite bind_get_fst. unfold vec_spare_len. rewrite bind_usub by (clear -Hl H3; lia).
    destruct (N.ltb_spec i (vcap v - v_len v)); [|done]. exfalso. clear -H Hi Hl. lia.
  - destruct (spare_write_ok Hz w v xs rest i x Hl Ho) as (w'&H4&H5&(H6&H7&_)&H8&_); [clear -Hi H2; lia|].
    rewrite app_nil_r in H7. exists rest, w'. split; [done|]. split; [done|].
    split; [by apply (spare_ok Hz w' v xs)|]. split; [|done].
    apply (as_slice_ok Hz). split; [done|]. by eexists.
Qed.
Lemma x_C88_write_ex :
  exists v w, @reached env_debug N num v w [1; 2] /\ @vcap N num v = 3 /\
    fst (@vec_spare_write env_debug N num 0 9 (v, w)) = Ret tt /\
    fst (@vec_spare_write env_debug N num 1 9 (v, w)) = Panic PIndex.
Proof.
  set (st := snd (@vrun env_debug N num [OPush 1; OPush 2; OPush 3; OPop] (Vec (sp_dangling 7 MNone) 0, snd (@vec_new env_debug N num w_start)))).
  exists (fst st), (snd st). split; [|split_and!; by vm_compute].
  exists w_start, (Vec (sp_dangling 7 MNone) 0), (snd (@vec_new env_debug N num w_start)), [OPush 1; OPush 2; OPush 3; OPop],
    (fst (@vrun env_debug N num [OPush 1; OPush 2; OPush 3; OPop] (Vec (sp_dangling 7 MNone) 0, snd (@vec_new env_debug N num w_start)))).
  split; [exact w_start_ok|]. split; [by vm_compute|]. split; [by vm_compute|]. split; [by vm_compute|].
  split; [|by vm_compute]. vm_compute. do 4 (apply List.Forall_cons; [left; by eexists|]). apply List.Forall_nil.
Qed.

(** Filling spare slots and declaring them with [set_len] appends the values, without any request to the
    allocator; afterwards the vector behaves as a list again. *)
Lemma p_C88_fill : forall (EN : Env) (T : Type) (EL : Elem T) v (w : world T) xs ys,
  0 < t_size -> no_drop_panic -> reached v w xs -> llen xs + llen ys <= vcap v ->
  exists v' w', vec_fill_spare ys (v, w) = (Ret tt, (v', w')) /\
    vec_as_slice v' w' = (Ret (xs ++ ys), w') /\ v_len v' = llen xs + llen ys /\ v_ptr v' = v_ptr v /\
    delete_ptr (vdata v') (heap w') = delete_ptr (vdata v) (heap w) /\ events w' = events w /\ drops w' = drops w /\
    (exists w2, vec_drop_val v' w' = (Ret tt, w2) /\ heap w2 = delete_ptr (vdata v) (heap w) /\
       drops w2 = drops w ++ xs ++ ys) /\
    forall ops, Forall (calm_vec e_strict) ops ->
      N.max (2 * (vcap v + total_demand ops)) 8 * t_size <= isize_max + 1 - t_align ->
      exists outs v2 w2 ins zs ds, vrun ops (v', w') = (outs, (v2, w2)) /\
        vtrace refuses t_clone (xs ++ ys) ops ins outs zs ds /\ vec_as_slice v2 w2 = (Ret zs, w2).
Proof.
  intros EN T EL v w xs ys Hz Hnd Hre Hy. pose proof (reached_rep Hz _ _ _ Hre) as Hr.
  destruct (fill_ok Hz w v xs ys Hr Hy) as (v'&w'&He&Hr'&(Hk1&Hk2&_)&Hev&Hp). rewrite app_nil_r in Hk2.
  exists v', w'. split; [done|]. split; [by apply (as_slice_ok Hz)|].
  split. { destruct Hr' as [-> _]. rewrite app_length. clear; lia. }
  split; [done|]. split; [done|]. split; [done|]. split; [done|]. split.
  - destruct (vec_drop_val_gone Hz w' v' _ Hr' Hnd) as (w2&Hd&Hg&Hd2&_). exists w2.
    split; [done|]. split; [by rewrite Hg|]. by rewrite Hd2, Hk2.
  - intros ops Hc Hf. assert (Hcap : vcap v' = vcap v) by (unfold vcap; by rewrite Hp).
    destruct (run_any Hz ops (vcap v) w' v' (xs ++ ys) Hr') as (outs&v2&w2&He2&Hcase);
      [clear -Hcap; lia|rewrite app_length; clear -Hy; lia|exact Hf|done|].
    destruct Hcase as [(ins&zs&ds&Ht&Hr2&_&_)|(pre&op&post&ins&outs'&zs&ds&u&->&->&Ht&Hu)].
    { exists outs, v2, w2, ins, zs, ds. split; [done|]. split; [done|]. by apply (as_slice_ok Hz). }
    exfalso. apply Forall_app in Hc as [_ Hc]. apply Forall_cons in Hc as [Hc _].
    destruct Hu as [(->&_&_&Hs)|([->| ->]&_)]; simpl in Hc; [congruence|done|clear -Hc; lia].
Qed.
Lemma x_C88_fill_ex :
  exists v w, @reached env_debug N num v w [1; 2] /\ llen [1; 2] + llen [9] <= @vcap N num v /\
    fst (@vec_fill_spare env_debug N num [9] (v, w)) = Ret tt.
Proof. destruct x_C88_write_ex as (v&w&Hr&Hc&_&_). exists v, w. split; [done|]. split; [by rewrite Hc|].
  assert (@no_drop_panic N num) as Hnd by (by intros ?).
  destruct (p_C88_fill env_debug N num v w [1; 2] [9]) as (?&?&->&_); [by vm_compute|done|done|by rewrite Hc|done]. Qed.

(** * C89 *)

(** The spare capacity of a [SmallVec], inline or on the heap: as many slots as capacity is left; writing one of them
    changes that slot and nothing else. *)
Lemma p_C89_small_spare : forall (EN : Env) (T : Type) (EL : Elem T) (Cap : N) s (w : world T) xs,
  0 < t_size -> sreached Cap s w xs ->
  exists sp, sv_spare Cap (s, w) = (Ret sp, (s, w)) /\ llen sp = sv_capacity Cap s - llen xs /\ llen xs <= sv_capacity Cap s /\
    sv_spare_len Cap s (s, w) = (Ret (llen sp), (s, w)) /\
    (forall i x, i < llen sp -> exists s' w', sv_spare_write Cap i x (s, w) = (Ret tt, (s', w')) /\
       sv_spare Cap (s', w') = (Ret (<[N.to_nat i := Some x]> sp), (s', w')) /\
       sv_slice s' w' = (Ret xs, w') /\ sv_marker s' = sv_marker s /\ sv_capacity Cap s' = sv_capacity Cap s /\
       srest s' w' = srest s w /\ events w' = events w /\ drops w' = drops w) /\
    (forall i x, llen sp <= i -> sv_spare_write Cap i x (s, w) = (Panic PIndex, (s, w))).
Proof.
  intros EN T EL Cap s w xs Hz Hr. sreach Hr.
  destruct (sspare_ok Hz Cap w s xs Hr) as (rest&H1&H2&H3&H4).
  assert (Hl : sv_len s = llen xs).
  { destruct Hr as [_ Hr]. unfold sv_len. destruct (sv_store s); [by destruct Hr as (?&_)|by destruct Hr]. }
  assert (Hsl : sv_spare_len Cap s (s, w) = (Ret (llen rest), (s, w))).
  { unfold sv_spare_len, usub. rewrite Hl. destruct (N.leb_spec (llen xs) (sv_capacity Cap s)); [|exfalso; clear -H H3; lia]. by rewrite H2. }
  exists rest. split; [done|]. split; [done|]. split; [done|]. split; [done|]. split.
  - intros i x Hi. destruct (H4 i x Hi) as (s'&w'&H5&H6&(H7&H8&_)&H9&H10&H11&H12). rewrite app_nil_r in H8.
    exists s', w'. split; [done|]. split; [done|]. split; [by apply (slice_sok Cap Hz)|]. done.
  - intros i x Hi. unfold sv_spare_write. rewrite bind_get_fst. rewrite (bind_Ret _ _ _ _ _ Hsl).
    destruct (N.ltb_spec i (llen rest)); [|done]. exfalso. clear -H Hi. lia.
Qed.
Lemma x_C89_small_spare_ex :
  @sreached env_debug N num_drop 4 (fst (sin env_debug num_drop)) (snd (sin env_debug num_drop)) [1; 2; 3] /\
  fst (@sv_spare env_debug N num_drop 4 (sin env_debug num_drop)) = Ret [None].
Proof. split; [apply sin_reached|]. by vm_compute. Qed.
