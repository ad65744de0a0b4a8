(** [SmallVec]: the code generic in [Vecx] run on the inline vector, resizing, splitting and the
    conversions. *)
From Verif Require Export SmallRun2 VecProofs6.
From Coq Require Import ZifyBool ZifyNat ZifyN.

Section stack_laws.
  Context {EN : Env} {T : Type} {EL : Elem T} (Hz : 0 < t_size) (Cap : N) (HCap : fits Cap).
  Notation W := (world T).
  Implicit Types (w : W) (k : stackvec T) (xs : list T).

  Definition stack_laws : @VecxLaws _ _ _ (stackvec T) (stack_vecx Cap).
  Proof.
    refine (@Build_VecxLaws _ _ _ _ (stack_vecx Cap)
      (fun _ k s => sk_slots k = s /\ llen s = Cap) (fun _ w _ w' ds => w' = add_drops ds w)
      _ _ _ _ _ _ _ _ _ _).
    - intros w k s [_ ->]. by apply (fits_bound Hz).
    - done.
    - intros ???????? -> ->. by rewrite add_drops_app.
    - done.
    - done.
    - intros w k s n [Hs Hc] Hn. eexists. split; [apply (sk_set_len_eq Hz); lia|]. by repeat split.
    - intros w k s i x [<- Hc] Hi. by apply (sk_read_eq Hz).
    - intros w k s i x [<- Hc] Hi. eexists _, w. split; [by apply (sk_write_eq Hz)|].
      repeat split; try done. simpl. by rewrite insert_length.
    - intros w k s i x [<- Hc] Hi. by apply (sk_drop_at_eq Hz).
    - intros w k s i j x [<- Hc] Hi Hj Hij. pose proof (lookup_lt_Some _ _ _ Hi) as Hlt.
      eexists _, w. split.
      + simpl. unfold sk_copy_no. rewrite sz_pos, orb_false_l by done. change (1 =? 0) with false. cbn iota.
        rewrite bind_assume by lia. by apply (sk_copy_eq Hz); lia.
      + simpl. repeat split; try done.
        * unfold copied. rewrite insert_take_drop by lia. f_equal. rewrite (drop_S _ _ _ Hi). simpl.
          by rewrite Nat.add_1_r.
        * by rewrite insert_length.
  Defined.

  Lemma skrep_vrep k xs w : skrep Cap k xs <-> @vrep _ _ _ _ (stack_vecx Cap) stack_laws w k xs.
  Proof.
    unfold skrep, vrep. simpl. split.
    - intros (Hl&Hc&rest&Hs). split; [done|]. exists rest. by rewrite <-Hs.
    - intros (Hl&rest&Hs&Hc). split; [done|]. split; [by rewrite Hs|]. by exists rest.
  Qed.

  Lemma sk_retain_ok {St} (f : St -> T -> St * option bool) st w k xs :
    skrep Cap k xs ->
    exists k' o ks d, @retain _ _ _ (stack_vecx Cap) _ f st (k, w) = (o, (k', add_drops d w)) /\
      retain_all f st xs = (o, ks, d) /\ skrep Cap k' ks.
  Proof.
    intros Hr. apply (skrep_vrep _ _ w) in Hr.
    destruct (retain_ok (L := stack_laws) f st w k xs Hr) as (k'&w'&o&ks&d&He&Ha&Hr'&->).
    apply skrep_vrep in Hr'. by exists k', o, ks, d.
  Qed.
  Lemma sk_dedup_by_ok {St} (f : St -> T -> T -> St * (T * T) * option bool) st w k xs :
    skrep Cap k xs ->
    exists k' o ks d, @dedup_by _ _ _ (stack_vecx Cap) _ f st (k, w) = (o, (k', add_drops d w)) /\
      dedup_all f st xs = (o, ks, d) /\ skrep Cap k' ks.
  Proof.
    intros Hr. apply (skrep_vrep _ _ w) in Hr.
    destruct (dedup_by_ok (L := stack_laws) f st w k xs Hr) as (k'&w'&o&ks&d&He&Ha&Hr'&->).
    apply skrep_vrep in Hr'. by exists k', o, ks, d.
  Qed.
  Lemma sk_dedup_by_key_ok {St K} (keq : K -> K -> bool) (key : St -> T -> St * T * option K) st w k xs :
    skrep Cap k xs ->
    exists k' o ks d, @dedup_by_key _ _ _ (stack_vecx Cap) _ _ keq key st (k, w) = (o, (k', add_drops d w)) /\
      dedup_key_all keq key st xs = (o, ks, d) /\ skrep Cap k' ks.
  Proof.
    intros Hr. apply (skrep_vrep _ _ w) in Hr.
    destruct (dedup_by_key_ok (L := stack_laws) keq key st w k xs Hr) as (k'&w'&o&ks&d&He&Ha&Hr'&->).
    apply skrep_vrep in Hr'. by exists k', o, ks, d.
  Qed.

  Lemma produce_len (g : nat -> option T) n : forall j,
    snd (produce g j n) = true -> length (fst (produce g j n)) = n.
  Proof.
    induction n as [|n IH]; intros j; simpl; [done|]. destruct (g j); [|done].
    specialize (IH (S j)). destruct (produce g (S j) n) as [l b]. simpl in *. intros ->. by rewrite IH.
  Qed.

  (** ** Pushing through [Vecx] *)
  Lemma sk_vpush_ok k xs x w :
    skrep Cap k xs -> llen xs < Cap ->
    exists k', @vx_push _ _ (stack_vecx Cap) x (k, w) = (Ret tt, (k', w)) /\ skrep Cap k' (xs ++ [x]).
  Proof.
    intros Hr Hlt. simpl. destruct (sk_push_ok Hz Cap k xs x w Hr Hlt) as (k'&He&Hr').
    { by apply (fits_bound Hz). }
    exists k'. split; [|done]. erewrite (bind_Ret _ _ _ tt); [exact He|].
    apply on_unwind_Ret. rewrite bind_get_fst. unfold debug_assert. destruct (@e_checks e_profile); [|done].
    unfold assert, sk_is_full. destruct Hr as (->&_). by destruct (N.eqb_spec (llen xs) Cap); [lia|].
  Qed.
  Lemma sk_vpush_full k xs x w :
    skrep Cap k xs -> llen xs = Cap -> no_drop_panic ->
    @vx_push _ _ (stack_vecx Cap) x (k, w) =
      (Panic (if e_checks then PDebugAssert else PAssert), (k, add_drop x w)).
  Proof.
    intros (Hl&_) Hf Hnd. simpl. unfold sk_unchecked_push, debug_assert, assert, sk_is_full.
    assert (forall p, on_unwind (k0 <- get_fst; if negb (sk_len k0 =? Cap) then ret tt else throw p)
             (on_snd (drop_val x)) (k, w) = (Panic p, (k, add_drop x w))) as E.
    { intros p. eapply on_unwind_Panic.
      - rewrite bind_get_fst, Hl, (proj2 (N.eqb_eq _ _)) by done. reflexivity.
      - apply on_snd_Ret. by rewrite drop_val_eq, drop_res_ok. }
    destruct (@e_checks e_profile).
    - erewrite bind_Panic by apply E. done.
    - erewrite (bind_Ret _ _ _ tt) by (apply on_unwind_Ret; by rewrite bind_get_fst).
      erewrite bind_Panic by apply E. done.
  Qed.

  Lemma sk_push_next_ok (next : nat -> M (stackvec T * W) T) (h : nat -> option T) n :
    (forall j st, next j st = (match h j with Some x => Ret x | None => Panic PUser end, st)) ->
    forall j w k xs, skrep Cap k xs -> llen xs + N.of_nat n <= Cap ->
    exists k', @push_next _ _ (stack_vecx Cap) next j n (k, w) =
        ((if snd (produce h j n) then Ret tt else Panic PUser), (k', w)) /\
      skrep Cap k' (xs ++ fst (produce h j n)).
  Proof.
    intros Hnext j w k xs Hr Hc. apply (skrep_vrep _ _ w) in Hr.
    destruct (push_next_ok (L := stack_laws) (fun _ => Cap) next h n) with (k := j) (w := w) (v := k) (xs := xs)
      as (k'&w'&He&Hr'&->&_); try done.
    - intros w0 k0 ys x Hr0 Hlt. apply skrep_vrep in Hr0.
      destruct (sk_vpush_ok k0 ys x w0 Hr0 Hlt) as (k'&He&Hr').
      exists k', w0. split; [done|]. split; [by apply skrep_vrep|]. done.
    - apply skrep_vrep in Hr'. by exists k'.
  Qed.

  Lemma sk_reserve_fits k xs n w :
    skrep Cap k xs -> llen xs + n <= Cap ->
    @vx_reserve_exact _ _ (stack_vecx Cap) n (k, w) = (Ret tt, (k, w)).
  Proof.
    intros (Hl&_) Hn. pose proof (fits_bound Hz _ HCap). simpl. rewrite bind_get_fst, Hl.
    unfold debug_assert, uadd. destruct (@e_checks e_profile) eqn:Ec; [|done].
    rewrite (proj2 (N.leb_le _ usize_max)) by (unfold isize_max, usize_max in *; lia). rewrite bind_ret.
    unfold assert. by rewrite (proj2 (N.leb_le _ _)).
  Qed.

  (** ** Resizing inline *)
  Lemma sk_resize_shrink next last cleanup n k xs w w' :
    skrep Cap k xs -> n <= llen xs ->
    (forall k, cleanup (k, w) = (Ret tt, (k, w'))) ->
    exists k', @do_resize _ _ _ (stack_vecx Cap) next last cleanup n (k, w) = (Ret tt, (k', w')) /\
      skrep Cap k' (take (N.to_nat n) xs).
  Proof.
    intros Hr Hn Hc. pose proof Hr as (Hl&_). unfold do_resize, vx_get_len.
    rewrite bind_assoc, bind_get_fst, bind_ret. change (@vx_len _ _ (stack_vecx Cap) k) with (sk_len k). rewrite Hl, (proj2 (N.leb_le _ _)) by done.
    destruct (sk_truncate_ok Hz Cap k xs n w Hr) as (k'&He&Hr').
    exists k'. split; [|done]. unfold finally. erewrite bind_Ret by (apply on_unwind_Ret; exact He).
    by erewrite bind_Ret by apply Hc.
  Qed.
  Lemma sk_resize_val_ok n x k xs w :
    skrep Cap k xs -> n <= Cap -> no_drop_panic ->
    exists r k' ds, @resize_val _ _ _ _ (stack_vecx Cap) n x (k, w) = (r, (k', add_drops ds w)) /\
      ((n <= llen xs /\ r = Ret tt /\ skrep Cap k' (take (N.to_nat n) xs) /\ ds = [x])
       \/ (llen xs < n /\ r = Ret tt /\ exists ys,
           (ys = [] /\ n = llen xs + 1 \/
            exists y, t_clone x = Some y /\ ys = replicate (N.to_nat (n - llen xs - 1)) y) /\
           skrep Cap k' (xs ++ ys ++ [x]) /\ ds = [])
       \/ (llen xs + 1 < n /\ r = Panic PUser /\ t_clone x = None /\ skrep Cap k' xs /\ ds = [x])).
  Proof.
    intros Hr Hn Hnd. pose proof Hr as (Hl&_).
    assert (forall k w, on_snd (drop_val x) (k, w) = (Ret tt, (k : stackvec T, add_drop x w))) as Hcl.
    { intros k0 w0. apply on_snd_Ret. by rewrite drop_val_eq, drop_res_ok. }
    destruct (N.le_gt_cases n (llen xs)) as [Hle|Hgt].
    { destruct (sk_resize_shrink (fun _ => on_snd (clone_val x)) (fun _ => ret x) (on_snd (drop_val x))
                  n k xs w (add_drop x w) Hr Hle) as (k'&He&Hr'); [intros; apply Hcl|].
      exists (Ret tt), k', [x]. split; [exact He|]. by left. }
    unfold resize_val, do_resize, vx_get_len.
    rewrite bind_assoc, bind_get_fst, bind_ret. change (@vx_len _ _ (stack_vecx Cap) k) with (sk_len k). rewrite Hl, (proj2 (N.leb_gt _ _)) by done.
    rewrite bind_usub by lia.
    pose proof (sk_reserve_fits k xs (n - llen xs) w Hr ltac:(lia)) as Hres.
    destruct (sk_push_next_ok (fun _ => on_snd (clone_val x)) (fun _ => t_clone x)
                (N.to_nat (n - llen xs - 1))) with (j := 0%nat) (w := w) (k := k) (xs := xs) as (k2&Hp&Hr2).
    { intros j [k0 w0]. unfold on_snd, clone_val. simpl. by destruct (t_clone x). }
    { done. } { lia. }
    assert (forall ys, snd (produce (fun _ => t_clone x) 0 (N.to_nat (n - llen xs - 1))) = true ->
      ys = fst (produce (fun _ => t_clone x) 0 (N.to_nat (n - llen xs - 1))) ->
      llen xs + llen ys < Cap ->
      exists k', @do_resize _ _ _ (stack_vecx Cap) (fun _ => on_snd (clone_val x)) (fun _ => ret x)
                   (on_snd (drop_val x)) n (k, w) = (Ret tt, (k', w)) /\
        skrep Cap k' (xs ++ ys ++ [x])) as Hgo.
    { intros ys Hs -> Hlt. rewrite Hs in Hp.
      destruct (sk_vpush_ok k2 _ x w Hr2) as (k3&He3&Hr3); [rewrite app_length; lia|].
      exists k3. rewrite <-app_assoc in Hr3. split; [|done].
      unfold do_resize, vx_get_len.
      rewrite bind_assoc, bind_get_fst, bind_ret. change (@vx_len _ _ (stack_vecx Cap) k) with (sk_len k). rewrite Hl, (proj2 (N.leb_gt _ _)) by done.
      rewrite bind_usub by lia. erewrite bind_Ret.
      2: { apply on_unwind_Ret. erewrite bind_Ret by exact Hres. rewrite bind_usub by lia.
           erewrite bind_Ret by exact Hp. reflexivity. }
      rewrite bind_ret. exact He3. }
    destruct (t_clone x) as [y|] eqn:Ec.
    - rewrite produce_const_Some in *. simpl in *.
      destruct (Hgo _ eq_refl eq_refl) as (k'&He&Hr'); [rewrite replicate_length; lia|].
      unfold do_resize, vx_get_len in He.
      rewrite bind_assoc, bind_get_fst, bind_ret in He. change (@vx_len _ _ (stack_vecx Cap) k) with (sk_len k) in He.
      rewrite Hl, (proj2 (N.leb_gt _ _)) in He by done. rewrite bind_usub in He by lia.
      exists (Ret tt), k', []. split; [exact He|]. right. left. split; [done|]. split; [done|].
      eexists. split; [right; eauto|]. done.
    - rewrite produce_const_None in *. simpl in *. rewrite app_nil_r in Hr2.
      destruct (decide (n = llen xs + 1)) as [->|Hne].
      + replace (llen xs + 1 - llen xs - 1) with 0 in * by lia.
        destruct (Hgo [] eq_refl eq_refl) as (k'&He&Hr'); [simpl; lia|].
        unfold do_resize, vx_get_len in He.
        rewrite bind_assoc, bind_get_fst, bind_ret in He. change (@vx_len _ _ (stack_vecx Cap) k) with (sk_len k) in He.
        rewrite Hl, (proj2 (N.leb_gt _ _)) in He by done. rewrite bind_usub in He by lia.
        exists (Ret tt), k', []. split; [exact He|]. right. left. split; [lia|]. split; [done|].
        exists []. split; [by left|]. done.
      + destruct (N.to_nat (n - llen xs - 1)) as [|m] eqn:Em; [lia|].
        exists (Panic PUser), k2, [x]. split.
        * unfold bind at 1. erewrite on_unwind_Panic; [reflexivity| |apply Hcl].
          erewrite bind_Ret by exact Hres. rewrite bind_usub by lia. rewrite Em.
          eapply bind_Panic. exact Hp.
        * right. right. split; [lia|]. done.
  Qed.
  Lemma sk_resize_fn_ok n g k xs w :
    skrep Cap k xs -> n <= Cap ->
    exists r k', @resize_fn _ _ _ (stack_vecx Cap) n g (k, w) = (r, (k', w)) /\
      ((n <= llen xs /\ r = Ret tt /\ skrep Cap k' (take (N.to_nat n) xs))
       \/ (llen xs < n /\
           r = (if snd (produce g 0 (N.to_nat (n - llen xs))) then Ret tt else Panic PUser) /\
           skrep Cap k' (xs ++ fst (produce g 0 (N.to_nat (n - llen xs)))))).
  Proof.
    intros Hr Hn. pose proof Hr as (Hl&_).
    destruct (N.le_gt_cases n (llen xs)) as [Hle|Hgt].
    { destruct (sk_resize_shrink (call_fn g) (call_fn g) (ret tt) n k xs w w Hr Hle) as (k'&He&Hr'); [done|].
      exists (Ret tt), k'. split; [exact He|]. by left. }
    unfold resize_fn, do_resize, vx_get_len.
    rewrite bind_assoc, bind_get_fst, bind_ret. change (@vx_len _ _ (stack_vecx Cap) k) with (sk_len k). rewrite Hl, (proj2 (N.leb_gt _ _)) by done.
    rewrite bind_usub by lia.
    pose proof (sk_reserve_fits k xs (n - llen xs) w Hr ltac:(lia)) as Hres.
    destruct (sk_push_next_ok (call_fn g) g (N.to_nat (n - llen xs - 1))) with (j := 0%nat) (w := w) (k := k) (xs := xs)
      as (k2&Hp&Hr2).
    { intros j [k0 w0]. unfold call_fn. by destruct (g j). }
    { done. } { lia. }
    set (m := N.to_nat (n - llen xs - 1)) in *.
    replace (N.to_nat (n - llen xs)) with (S m) by lia.
    rewrite produce_S by done. pose proof (produce_len g m 0) as Hlen.
    destruct (produce g 0 m) as [l b] eqn:El. simpl in Hp, Hr2, Hlen. simpl. destruct b.
    - erewrite bind_Ret.
      2: { apply on_unwind_Ret. erewrite bind_Ret by exact Hres. rewrite bind_usub by lia.
           erewrite bind_Ret by exact Hp. reflexivity. }
      fold m. unfold call_fn at 1. simpl. destruct (g m) as [x|].
      + destruct (sk_vpush_ok k2 _ x w Hr2) as (k3&He3&Hr3); [rewrite app_length, Hlen by done; lia|].
        exists (Ret tt), k3. split; [rewrite bind_ret; exact He3|]. right. simpl.
        rewrite app_assoc. done.
      + exists (Panic PUser), k2. split; [done|]. right. simpl. done.
    - exists (Panic PUser), k2. split.
      + unfold bind at 1. erewrite on_unwind_Panic; [reflexivity| |reflexivity].
        erewrite bind_Ret by exact Hres. rewrite bind_usub by lia. eapply bind_Panic. exact Hp.
      + right. done.
  Qed.

  (** Growing beyond the inline capacity. *)
  Definition may_call {A} (m : M (stackvec T * W) A) : Prop :=
    forall st, (exists a, m st = (Ret a, st)) \/ (exists p, m st = (Panic p, st)).
  Lemma sk_push_next_over next n : (forall j, may_call (next j)) -> no_drop_panic ->
    forall j k xs w, skrep Cap k xs -> Cap <= llen xs + N.of_nat n ->
    (exists p st, @push_next _ _ (stack_vecx Cap) next j n (k, w) = (Panic p, st)) \/
    (llen xs + N.of_nat n = Cap /\ exists k' ys, @push_next _ _ (stack_vecx Cap) next j n (k, w) = (Ret tt, (k', w)) /\
       skrep Cap k' ys /\ llen ys = Cap).
  Proof.
    intros Hnext Hnd. induction n as [|n IH]; intros j k xs w Hr Hc.
    { pose proof (skrep_len Hz _ _ _ Hr). right. split; [lia|]. exists k, xs. split; [done|]. split; [done|]. lia. }
    simpl. destruct (Hnext j (k, w)) as [[x Hx]|[p Hx]].
    2: { left. exists p, (k, w). by erewrite bind_Panic by exact Hx. }
    destruct (N.eq_dec (llen xs) Cap) as [Hf|Hf].
    { left. eexists _, _. erewrite bind_Ret by exact Hx. erewrite bind_Panic; [reflexivity|].
      apply (sk_vpush_full k xs x w Hr Hf Hnd). }
    pose proof (skrep_len Hz _ _ _ Hr).
    destruct (sk_vpush_ok k xs x w Hr) as (k1&He1&Hr1); [lia|].
    destruct (IH (S j) k1 (xs ++ [x]) w Hr1) as [(p&st&He)|(Hn&k'&ys&He&Hr'&Hy)].
    { rewrite app_length. simpl. lia. }
    - left. exists p, st. erewrite bind_Ret by exact Hx. by erewrite bind_Ret by exact He1.
    - right. rewrite app_length in Hn. simpl in Hn. split; [lia|]. exists k', ys.
      erewrite bind_Ret by exact Hx. by erewrite bind_Ret by exact He1.
  Qed.
  Lemma sk_resize_over next last cleanup n k xs w :
    (forall j, may_call (next j)) -> (forall j, may_call (last j)) ->
    (forall st, exists st', cleanup st = (Ret tt, st')) -> no_drop_panic ->
    skrep Cap k xs -> Cap < n -> n <= usize_max ->
    exists p st, @do_resize _ _ _ (stack_vecx Cap) next last cleanup n (k, w) = (Panic p, st).
  Proof.
    intros Hnext Hlast Hcl Hnd Hr Hn Hmax. pose proof Hr as (Hl&_). pose proof (skrep_len Hz _ _ _ Hr) as [_ Hle].
    unfold do_resize, vx_get_len.
    rewrite bind_assoc, bind_get_fst, bind_ret. change (@vx_len _ _ (stack_vecx Cap) k) with (sk_len k). rewrite Hl, (proj2 (N.leb_gt _ _)) by lia.
    rewrite bind_usub by lia.
    assert (forall (m : M (stackvec T * W) nat) p st (f : nat -> M (stackvec T * W) unit),
      m (k, w) = (Panic p, st) -> exists p' st', bind (on_unwind m cleanup) f (k, w) = (Panic p', st' : stackvec T * W)) as Hun.
    { intros m p st f Hm. destruct (Hcl st) as [st' Hc]. exists p, st'.
      eapply bind_Panic. by eapply on_unwind_Panic. }
    destruct (@e_checks e_profile) eqn:Ec.
    { eapply (Hun _ PDebugAssert (k, w)). eapply bind_Panic. simpl. rewrite Ec, bind_get_fst, Hl.
      rewrite bind_uadd by lia. unfold debug_assert. rewrite Ec. unfold assert.
      by rewrite (proj2 (N.leb_gt _ _)) by lia. }
    assert (@vx_reserve_exact _ _ (stack_vecx Cap) (n - llen xs) (k, w) = (Ret tt, (k, w))) as Hres.
    { simpl. by rewrite Ec, bind_get_fst. }
    destruct (sk_push_next_over next (N.to_nat (n - llen xs - 1)) Hnext Hnd 0 k xs w Hr)
      as [(p&st&He)|(_&k'&ys&He&Hr'&Hy)]; [lia| |].
    - eapply (Hun _ p st). erewrite bind_Ret by exact Hres. rewrite bind_usub by lia. by eapply bind_Panic.
    - erewrite bind_Ret.
      2: { apply on_unwind_Ret. erewrite bind_Ret by exact Hres. rewrite bind_usub by lia.
           erewrite bind_Ret by exact He. reflexivity. }
      destruct (Hlast (N.to_nat (n - llen xs - 1)) (k', w)) as [[x Hx]|[p Hx]].
      + eexists _, _. erewrite bind_Ret by exact Hx. apply (sk_vpush_full k' ys x w Hr' Hy Hnd).
      + eexists _, _. by eapply bind_Panic.
  Qed.
End stack_laws.

Section small4.
  Context {EN : Env} {T : Type} {EL : Elem T} (Hz : 0 < t_size) (Cap : N) (HCap : fits Cap).
  Notation W := (world T).
  Notation MS := (M (svec T * W)).
  Implicit Types (w : W) (s : svec T) (xs : list T).

  (** ** The methods shared by both storages *)
  Lemma retain_sok {St} (f : St -> T -> St * option bool) st w s xs :
    srep Cap w s xs ->
    exists s' w' o k d, sv_retain Cap f st (s, w) = (o, (s', w')) /\ retain_all f st xs = (o, k, d) /\
      srep Cap w' s' k /\ skeeps s w s' w' d.
  Proof.
    intros [Hw Hr]. destruct s as [[k|v] m]; simpl in Hr; unfold sv_retain.
    - destruct (sk_retain_ok Hz Cap HCap f st w k xs Hr) as (k'&o&ks&d&He&Ha&Hr').
      eexists _, _, o, ks, d. split; [by apply redirect_stack|]. split; [done|].
      split; [split; [by apply wok_drops|done]|by apply skeeps_stack].
    - destruct (vec_retain_ok Hz f st w v xs Hr) as (v'&w'&o&ks&d&He&Ha&Hr'&Hk).
      eexists _, _, o, ks, d. split; [by apply redirect_heap|]. split; [done|].
      split; [by apply srep_heap|by apply skeeps_heap].
  Qed.
  Lemma dedup_by_sok {St} (f : St -> T -> T -> St * (T * T) * option bool) st w s xs :
    srep Cap w s xs ->
    exists s' w' o k d, sv_dedup_by Cap f st (s, w) = (o, (s', w')) /\ dedup_all f st xs = (o, k, d) /\
      srep Cap w' s' k /\ skeeps s w s' w' d.
  Proof.
    intros [Hw Hr]. destruct s as [[k|v] m]; simpl in Hr; unfold sv_dedup_by.
    - destruct (sk_dedup_by_ok Hz Cap HCap f st w k xs Hr) as (k'&o&ks&d&He&Ha&Hr').
      eexists _, _, o, ks, d. split; [by apply redirect_stack|]. split; [done|].
      split; [split; [by apply wok_drops|done]|by apply skeeps_stack].
    - destruct (vec_dedup_by_ok Hz f st w v xs Hr) as (v'&w'&o&ks&d&He&Ha&Hr'&Hk).
      eexists _, _, o, ks, d. split; [by apply redirect_heap|]. split; [done|].
      split; [by apply srep_heap|by apply skeeps_heap].
  Qed.
  Lemma dedup_by_key_sok {St K} (keq : K -> K -> bool) (key : St -> T -> St * T * option K) st w s xs :
    srep Cap w s xs ->
    exists s' w' o k d, sv_dedup_by_key Cap keq key st (s, w) = (o, (s', w')) /\
      dedup_key_all keq key st xs = (o, k, d) /\ srep Cap w' s' k /\ skeeps s w s' w' d.
  Proof.
    intros [Hw Hr]. destruct s as [[k|v] m]; simpl in Hr; unfold sv_dedup_by_key.
    - destruct (sk_dedup_by_key_ok Hz Cap HCap keq key st w k xs Hr) as (k'&o&ks&d&He&Ha&Hr').
      eexists _, _, o, ks, d. split; [by apply redirect_stack|]. split; [done|].
      split; [split; [by apply wok_drops|done]|by apply skeeps_stack].
    - destruct (vec_dedup_by_key_ok Hz keq key st w v xs Hr) as (v'&w'&o&ks&d&He&Ha&Hr'&Hk).
      eexists _, _, o, ks, d. split; [by apply redirect_heap|]. split; [done|].
      split; [by apply srep_heap|by apply skeeps_heap].
  Qed.

  (** ** Reservations that stay inline, and those that do not *)
  Definition roomy_for (len n : N) : Prop := len + N.max (min_non_zero_cap - Cap) n <= Cap.
  Lemma reserve_inline w k m xs n :
    srep Cap w (SVec (Stack k) m) xs -> roomy_for (llen xs) n ->
    sv_reserve Cap n (SVec (Stack k) m, w) = (Ret tt, (SVec (Stack k) m, w)).
  Proof.
    intros [Hw Hr] Hro. simpl in Hr. pose proof Hr as (Hl&_). pose proof (cap_bound Hz Cap HCap).
    unfold roomy_for in Hro. pose proof (min_cap_le Hz).
    unfold sv_reserve. erewrite (bind_Ret _ _ _ (Ok tt)); [reflexivity|].
    unfold sv_try_reserve. rewrite bind_get_fst. unfold sv_capacity. cbn [sv_store].
    rewrite guarded_add_ok by (unfold isize_max, usize_max in *; lia).
    rewrite bind_usub by lia. unfold sv_try_reserve_exact. rewrite bind_get_fst. cbn [sv_store].
    rewrite Hl. rewrite guarded_add_ok by (unfold isize_max, usize_max in *; lia).
    destruct (N.ltb_spec Cap (llen xs + (N.max min_non_zero_cap (Cap + n) - Cap))); [lia|done].
  Qed.
  Lemma reserve_to_heap w k m xs n s' w' :
    srep Cap w (SVec (Stack k) m) xs -> fits (llen xs + n + 8) -> ~ roomy_for (llen xs) n ->
    sv_reserve Cap n (SVec (Stack k) m, w) = (Ret tt, (s', w')) -> is_stack s' = false.
  Proof.
    intros Hs Hf Hro. pose proof Hs as [Hw Hr]. simpl in Hr. pose proof Hr as (Hl&_).
    pose proof (cap_bound Hz Cap HCap). pose proof (skrep_len Hz _ _ _ Hr). unfold roomy_for in Hro.
    pose proof (min_cap_le Hz). pose proof (fits_bound Hz _ Hf) as Hfb.
    unfold sv_reserve. unfold sv_try_reserve. rewrite bind_assoc, bind_get_fst. unfold sv_capacity. cbn [sv_store].
    rewrite bind_assoc. rewrite guarded_add_ok by (unfold isize_max, usize_max in *; lia).
    rewrite bind_assoc. rewrite bind_usub by lia. unfold sv_try_reserve_exact.
    rewrite bind_assoc, bind_get_fst. cbn [sv_store]. rewrite bind_assoc.
    rewrite Hl. rewrite guarded_add_ok by (unfold isize_max, usize_max in *; lia).
    destruct (N.ltb_spec Cap (llen xs + (N.max min_non_zero_cap (Cap + n) - Cap))); [|lia].
    destruct (move_ok Hz Cap w k m xs (N.max min_non_zero_cap (Cap + n) - Cap) Hs) as (r&s1&w1&He&Hk&Hr'&Hcase).
    { eapply (fits_le Hz); [|exact Hf]. lia. }
    erewrite bind_Ret by exact He.
    destruct Hcase as [(->&v&Hv&_)|(->&_)]; [|done].
    intros [= <- <-]. unfold is_stack. by rewrite Hv.
  Qed.

  (** ** Resizing *)
  Lemma resize_sok n x w s xs :
    srep Cap w s xs -> no_drop_panic -> fits (llen xs + n + 8) ->
    n <= Cap \/ is_stack s = false \/ ~ roomy_for (llen xs) (n - Cap) ->
    exists r s' w', sv_resize Cap n x (s, w) = (r, (s', w')) /\
      ((n <= llen xs /\ r = Ret tt /\ srep Cap w' s' (take (N.to_nat n) xs) /\
          skeeps s w s' w' ((if is_stack s' then [] else drop (N.to_nat n) xs) ++ [x]))
       \/ (llen xs < n /\ r = Ret tt /\ exists ys,
           (ys = [] /\ n = llen xs + 1 \/
            exists y, t_clone x = Some y /\ ys = replicate (N.to_nat (n - llen xs - 1)) y) /\
           srep Cap w' s' (xs ++ ys ++ [x]) /\ skeeps s w s' w' [])
       \/ (llen xs + 1 < n /\ r = Panic PUser /\ t_clone x = None /\ srep Cap w' s' xs /\
           skeeps s w s' w' [x])
       \/ (r = Panic PUnwrap /\ srep Cap w' s' xs /\ skeeps s w s' w' [x] /\ refuses)).
  Proof.
    intros Hr Hnd Hf Hcond. unfold sv_resize.
    pose proof (fits_bound Hz _ Hf) as Hfb.
    assert (forall s1 w1, srep Cap w1 s1 xs -> skeeps s w s1 w1 [] -> (is_stack s1 = true -> n <= Cap) ->
      exists r s' w', redirect (@resize_val _ _ _ _ (stack_vecx Cap) n x) (resize_val n x) (s1, w1) = (r, (s', w')) /\
      ((n <= llen xs /\ r = Ret tt /\ srep Cap w' s' (take (N.to_nat n) xs) /\
          skeeps s w s' w' ((if is_stack s' then [] else drop (N.to_nat n) xs) ++ [x]))
       \/ (llen xs < n /\ r = Ret tt /\ exists ys,
           (ys = [] /\ n = llen xs + 1 \/
            exists y, t_clone x = Some y /\ ys = replicate (N.to_nat (n - llen xs - 1)) y) /\
           srep Cap w' s' (xs ++ ys ++ [x]) /\ skeeps s w s' w' [])
       \/ (llen xs + 1 < n /\ r = Panic PUser /\ t_clone x = None /\ srep Cap w' s' xs /\
           skeeps s w s' w' [x])
       \/ (r = Panic PUnwrap /\ srep Cap w' s' xs /\ skeeps s w s' w' [x] /\ refuses))) as Hgo.
    { intros s1 w1 [Hw1 Hr1] Hk1 Hn. destruct s1 as [[k|v] m]; simpl in Hr1.
      - destruct (sk_resize_val_ok Hz Cap HCap n x k xs w1 Hr1) as (r&k'&ds&He&Hcase); [by apply Hn|done|].
        eexists r, _, _. split; [by apply redirect_stack|].
        assert (skeeps s w (SVec (Stack k') m) (add_drops ds w1) ds) as Hk'.
        { eapply (skeeps_trans_l Hz); [exact Hk1|]. apply skeeps_stack. }
        pose proof (wok_drops w1 ds Hw1) as Hw'.
        destruct Hcase as [(?&->&Hr'&->)|[(?&->&ys&Hys&Hr'&->)|(?&->&?&Hr'&->)]].
        + left. split; [done|]. split; [done|]. split; [by split|]. done.
        + right. left. split; [done|]. split; [done|]. exists ys. split; [done|]. split; [by split|]. done.
        + right. right. left. split; [done|]. split; [done|]. split; [done|]. split; [by split|]. done.
      - destruct (resize_val_ok Hz w1 v xs n x Hr1 Hnd) as (r&v'&w'&He&_&Hcase).
        { eapply (fits_le Hz); [|exact Hf]. lia. }
        eexists r, _, _. split; [by apply redirect_heap|].
        assert (forall ds, keeps v w1 v' w' ds -> skeeps s w (SVec (Heap v') m) w' ds) as Hk'.
        { intros ds Hk. eapply (skeeps_trans_l Hz); [exact Hk1|]. by apply skeeps_heap. }
        destruct Hcase as [(?&->&Hr'&Hk)|[(?&->&ys&Hys&Hr'&Hk)|[(?&->&?&Hr'&Hk)|(?&->&Hr'&Hk&->&?)]]].
        + left. split; [done|]. split; [done|]. split; [by apply srep_heap|]. by apply Hk'.
        + right. left. split; [done|]. split; [done|]. exists ys. split; [done|].
          split; [by apply srep_heap|]. by apply Hk'.
        + right. right. left. split; [done|]. split; [done|]. split; [done|].
          split; [by apply srep_heap|]. by apply Hk'.
        + right. right. right. split; [done|]. split; [by apply srep_heap|]. split; [by apply Hk'|done]. }
    destruct (N.ltb_spec Cap n) as [Hlt|Hge].
    2: { erewrite (bind_Ret _ _ _ tt) by (by apply on_unwind_Ret). apply Hgo; [done| |done].
         by apply skeeps_refl. }
    destruct (reserve_sok Hz Cap HCap w s xs (n - Cap) Hr) as (r&s1&w1&He&Hk&Hr1&_&Hst&Hcase).
    { eapply (fits_le Hz); [|exact Hf]. lia. }
    destruct Hcase as [(->&_)|(->&->&Hrf)].
    - erewrite (bind_Ret _ _ _ tt).
      2: { apply on_unwind_Ret. rewrite bind_usub by lia. exact He. }
      apply Hgo; [done|done|]. intros Hs1. exfalso. pose proof (Hst Hs1) as ->.
      destruct Hcond as [?|[?|Hro]]; [lia|congruence|].
      destruct s as [[k|v] m]; [|done].
      rewrite (reserve_to_heap w k m xs (n - Cap) _ w1 Hr) in Hs1; [done| |done|exact He].
      eapply (fits_le Hz); [|exact Hf]. lia.
    - assert (on_unwind (m <- usub n Cap; sv_reserve Cap m) (on_snd (drop_val x)) (s, w) =
        (Panic PUnwrap, (s, add_drop x w1))) as E.
      { erewrite on_unwind_drop_s; [rewrite unwound_ok by done; reflexivity|].
        rewrite bind_usub by lia. exact He. }
      erewrite bind_Panic by exact E. eexists _, s, _. split; [reflexivity|]. right. right. right.
      split; [done|]. split; [by apply srep_drop|]. split; [by apply (skeeps_drop _ _ _ _ [])|done].
  Qed.
  Lemma resize_inline_fails n x w s xs :
    srep Cap w s xs -> no_drop_panic -> n <= usize_max ->
    is_stack s = true -> Cap < n -> roomy_for (llen xs) (n - Cap) ->
    exists p st, sv_resize Cap n x (s, w) = (Panic p, st).
  Proof.
    intros Hr Hnd Hmax Hst Hn Hro. destruct s as [[k|v] m]; [|done].
    unfold sv_resize. rewrite (proj2 (N.ltb_lt _ _)) by done.
    erewrite (bind_Ret _ _ _ tt).
    2: { apply on_unwind_Ret. rewrite bind_usub by lia. by apply (reserve_inline w k m xs). }
    destruct Hr as [Hw Hr]. simpl in Hr.
    destruct (sk_resize_over Hz Cap HCap (fun _ => on_snd (clone_val x)) (fun _ => ret x)
                (on_snd (drop_val x)) n k xs w) as (p&[k' w']&He); try done.
    - intros j [k0 w0]. unfold on_snd, clone_val. simpl. destruct (t_clone x); [left|right]; by eexists.
    - intros j st. left. by eexists.
    - intros [k0 w0]. eexists. apply on_snd_Ret. by rewrite drop_val_eq, drop_res_ok.
    - eexists p, _. by apply redirect_stack.
  Qed.
  Lemma resize_with_sok n g w s xs :
    srep Cap w s xs -> no_drop_panic -> fits n -> n <= Cap \/ is_stack s = false ->
    exists r s' w', sv_resize_with Cap n g (s, w) = (r, (s', w')) /\
      ((n <= llen xs /\ r = Ret tt /\ srep Cap w' s' (take (N.to_nat n) xs) /\
          skeeps s w s' w' (if is_stack s' then [] else drop (N.to_nat n) xs))
       \/ (llen xs < n /\
           r = (if snd (produce g 0 (N.to_nat (n - llen xs))) then Ret tt else Panic PUser) /\
           srep Cap w' s' (xs ++ fst (produce g 0 (N.to_nat (n - llen xs)))) /\ skeeps s w s' w' [])
       \/ (r = Panic PUnwrap /\ srep Cap w' s' xs /\ skeeps s w s' w' [] /\ refuses)).
  Proof.
    intros [Hw Hr] Hnd Hf Hcond. destruct s as [[k|v] m]; simpl in Hr; unfold sv_resize_with.
    - destruct Hcond as [Hn|?]; [|done].
      destruct (sk_resize_fn_ok Hz Cap HCap n g k xs w Hr Hn) as (r&k'&He&Hcase).
      eexists r, _, _. split; [by apply redirect_stack|].
      destruct Hcase as [(?&->&Hr')|(?&->&Hr')].
      + left. split; [done|]. split; [done|]. split; [by split|]. apply skeeps_stack0.
      + right. left. split; [done|]. split; [done|]. split; [by split|]. apply skeeps_stack0.
    - destruct (resize_fn_ok Hz w v xs n g Hr Hnd Hf) as (r&v'&w'&He&_&Hcase).
      eexists r, _, _. split; [by apply redirect_heap|].
      destruct Hcase as [(?&->&Hr'&Hk)|[(?&->&Hr'&Hk)|(?&->&Hr'&Hk&->&?)]].
      + left. split; [done|]. split; [done|]. split; [by apply srep_heap|]. by apply skeeps_heap.
      + right. left. split; [done|]. split; [done|]. split; [by apply srep_heap|]. by apply skeeps_heap.
      + right. right. split; [done|]. split; [by apply srep_heap|]. split; [by apply skeeps_heap|done].
  Qed.
  Lemma resize_with_inline_fails n g w s xs :
    srep Cap w s xs -> no_drop_panic -> n <= usize_max ->
    is_stack s = true -> Cap < n -> exists p st, sv_resize_with Cap n g (s, w) = (Panic p, st).
  Proof.
    intros [Hw Hr] Hnd Hmax Hst Hn. destruct s as [[k|v] m]; [|done]. simpl in Hr.
    destruct (sk_resize_over Hz Cap HCap (call_fn g) (call_fn g) (ret tt) n k xs w) as (p&[k' w']&He); try done.
    - intros j st. unfold call_fn. destruct (g j); [left|right]; by eexists.
    - intros j st. unfold call_fn. destruct (g j); [left|right]; by eexists.
    - intros st. by eexists.
    - eexists p, _. unfold sv_resize_with. by apply redirect_stack.
  Qed.

  (** ** Conversions *)
  Lemma from_slice_sok l w :
    wok w -> fits (llen l + 8) -> no_drop_panic ->
    exists r w', sv_from_slice Cap l w = (r, w') /\
      ((exists s ys, r = Ret s /\ srep Cap w' s ys /\ sborn w s w' [] /\ mapM t_clone l = Some ys)
       \/ (exists ds l1 x l2, r = Panic PUser /\ l = l1 ++ x :: l2 /\ mapM t_clone l1 = Some ds /\
             t_clone x = None /\ still w w' ds)
       \/ (exists ds, r = Panic PUnwrap /\ refuses /\ still w w' ds)).
  Proof.
    intros Hw Hf Hnd. unfold sv_from_slice.
    destruct (with_capacity_sok Hz Cap w (llen l) Hw) as (r&w1&He&Hcase).
    { eapply (fits_le Hz); [|exact Hf]. lia. }
    destruct Hcase as [(s&->&Hr&Hb&Hc&Hh)|(->&Hst&Hrf)].
    2: { eexists _, _. split; [by erewrite bind_Panic by exact He|]. right. right. by exists []. }
    erewrite bind_Ret by exact He.
    destruct (extend_slice_sok Hz Cap HCap l w1 s [] Hr) as (r&s'&w'&ys&ds&He'&Hr'&Hk&_&Hcase); [simpl; done|].
    simpl in Hr'. pose proof (sborn_keeps Hz _ _ _ _ _ _ _ Hb Hk (proj1 Hr')) as Hb'. simpl in Hb'.
    assert (forall p, r = Panic p -> exists w2,
      with_local s (sv_extend_from_slice Cap l) sv_drop w1 = (Panic p, w2) /\ still w w2 (ds ++ ys)) as Hp.
    { intros p ->. destruct (drop_sok Hz Cap w' s' ys Hr' Hnd) as (s2&w2&Hd&Hg). exists w2.
      split; [by eapply with_local_Panic_s|]. by eapply sborn_gone. }
    destruct Hcase as [(->&Hm&->)|[(->&(l1&x&l2&Hl&Hm&Hx)&->)|[(->&->&->&Hrf)|(l1&x&l2&y&Hl&Hm&Hx&->&->&Hrf)]]].
    - eexists _, _. split.
      { erewrite bind_Ret by (eapply with_local_Ret_s; exact He'). reflexivity. }
      left. exists s', ys. done.
    - destruct (Hp _ eq_refl) as (w2&Hw2&Hs2). eexists _, _. split; [by erewrite bind_Panic by exact Hw2|].
      right. left. by exists ys, l1, x, l2.
    - destruct (Hp _ eq_refl) as (w2&Hw2&Hs2). eexists _, _. split; [by erewrite bind_Panic by exact Hw2|].
      right. right. by eexists.
    - rewrite unwound_ok in Hp by done.
      destruct (Hp _ eq_refl) as (w2&Hw2&Hs2). eexists _, _. split; [by erewrite bind_Panic by exact Hw2|].
      right. right. by eexists.
  Qed.

  Lemma into_vec_sok w s xs :
    srep Cap w s xs -> fits (N.max (llen xs) 8) -> no_drop_panic ->
    exists r w', sv_into_vec s w = (r, w') /\
      ((exists v, r = Ret v /\ rep w' v xs /\ vrest v w' = srest s w /\ drops w' = drops w)
       \/ (r = Panic PUnwrap /\ sgone s w w' xs /\ refuses)).
  Proof.
    intros Hr Hf Hnd. unfold sv_into_vec.
    assert (exists r s' w', sv_move_to_heap (s, w) = (r, (s', w')) /\ skeeps s w s' w' [] /\
      srep Cap w' s' xs /\
      ((r = Ret tt /\ is_stack s' = false) \/ (r = Panic PUnwrap /\ refuses))) as (r&s'&w'&He&Hk&Hr'&Hcase).
    { destruct s as [[k|v] m].
      - destruct (move_ok Hz Cap w k m xs 0 Hr) as (r&s'&w'&He&Hk&Hr'&Hcase); [by rewrite N.add_0_r|].
        assert (sv_move_to_heap (SVec (Stack k) m, w) = unwrap r (s', w')) as He'
          by (unfold sv_move_to_heap; by erewrite bind_Ret by exact He).
        destruct Hcase as [(->&v&Hv&_)|(->&->&Hrf)].
        + eexists _, s', w'. split; [exact He'|]. split; [done|]. split; [done|]. left.
          unfold is_stack. by rewrite Hv.
        + eexists _, _, w'. split; [exact He'|]. split; [done|]. split; [done|]. by right.
      - pose proof Hr as [Hw Hr0]. simpl in Hr0.
        destruct (reserve_exact_ok Hz w v xs 0 Hr0) as (r&v'&w'&He&Hk&Hr'&Hc).
        { eapply (fits_le Hz); [|exact Hf]. lia. }
        pose proof (rep_cap Hz _ _ _ Hr0) as [Hlc _].
        destruct Hc as [(->&_&_&Hs&_)|(_&_&?&_)]; [|lia].
        destruct Hs as [-> ->]; [lia|].
        eexists (Ret tt), _, w. split.
        { unfold sv_move_to_heap, sv_try_move_to_heap_and_reserve_exact.
          rewrite !bind_assoc, bind_get_fst. cbn [sv_store]. rewrite !bind_assoc.
          erewrite bind_Ret by (apply on_heap_eq; exact He). reflexivity. }
        split; [by apply skeeps_refl|]. split; [done|]. by left. }
    destruct Hcase as [(->&Hs)|(->&Hrf)].
    - erewrite bind_Ret by (eapply with_local_Ret_s; exact He). cbn [snd].
      destruct s' as [[k|v] m]; [done|]. eexists _, _. split; [reflexivity|]. left.
      exists v. split; [done|]. destruct Hr' as [_ Hr']. simpl in Hr'. split; [done|].
      destruct Hk as (H1&H2&_). split; [exact H1|]. by rewrite H2, app_nil_r.
    - destruct (drop_sok Hz Cap w' s' xs Hr' Hnd) as (s2&w2&Hd&Hg).
      erewrite bind_Panic by (eapply with_local_Panic_s; [exact He|exact Hd]).
      eexists _, _. split; [reflexivity|]. right. split; [done|]. split; [|done].
      by apply (skeeps_gone Hz _ _ _ _ _ [] xs Hk).
  Qed.

  Lemma from_vec_sok w v xs : rep w v xs -> srep Cap w (sv_from_vec v) xs.
  Proof. intros Hr. by apply srep_heap. Qed.

  Lemma from_array_long w l :
    wok w -> no_drop_panic -> fits (llen l) -> Cap < llen l ->
    exists r w', sv_from_array Cap l w = (r, w') /\
      ((exists s, r = Ret s /\ srep Cap w' s l /\ sborn w s w' [])
       \/ (r = Panic PUnwrap /\ still w w' l /\ refuses)).
  Proof.
    intros Hw Hnd Hf Hl. unfold sv_from_array. rewrite (proj2 (N.leb_gt _ _)) by done.
    destruct (from_array_ok Hz w l Hw Hnd Hf) as (r&w'&He&Hcase).
    destruct Hcase as [(v&->&Hr&Hb&_)|(->&Hs&Hrf)].
    - erewrite bind_Ret by exact He. eexists _, _. split; [reflexivity|]. left.
      eexists. split; [done|]. split; [by apply srep_heap|exact Hb].
    - erewrite bind_Panic by exact He. eexists _, _. split; [reflexivity|]. by right.
  Qed.
  Lemma from_array_short w l :
    wok w -> llen l <= Cap ->
    exists s, sv_from_array Cap l w = (Ret s, w) /\ srep Cap w s [] /\ is_stack s = true.
  Proof.
    intros Hw Hl. unfold sv_from_array. rewrite (proj2 (N.leb_le _ _)) by done.
    unfold store_copy. rewrite sz_pos, orb_false_l by done.
    destruct (N.eqb_spec (llen l) 0) as [H0|H0].
    { eexists. split; [reflexivity|]. split; [|done]. split; [done|]. by apply skrep_new. }
    unfold store_out, store_in. cbn [sk_slots sk_new].
    rewrite (proj2 (N.leb_le _ _)) by (rewrite fmap_length; lia).
    rewrite bind_assoc, bind_ret. change (N.to_nat 0) with 0%nat. rewrite drop_0, Nat2N.id.
    rewrite take_ge by (rewrite fmap_length; lia).
    rewrite (proj2 (N.leb_le _ _)) by (rewrite fmap_length, replicate_length; lia).
    rewrite bind_ret. eexists. split; [reflexivity|]. split; [|done]. split; [done|]. simpl.
    split; [done|]. split; [|by eexists]. simpl.
    rewrite app_length, drop_length, fmap_length, replicate_length. lia.
  Qed.
End small4.

Section small_split.
  Context {EN : Env} {T : Type} {EL : Elem T} (Hz : 0 < t_size) (Cap Len : N)
    (HCap : fits Cap) (HLen : fits Len).
  Notation W := (world T).
  Implicit Types (w : W) (s : svec T) (xs : list T).

  Lemma split_off_sok w s xs at_ :
    srep Cap w s xs -> at_ < llen xs -> fits (llen xs) ->
    exists r s' w', sv_split_off_into Cap Len at_ (s, w) = (r, (s', w')) /\
      ((exists o, r = Ret o /\ srep Cap w' s' (take (N.to_nat at_) xs) /\
          srep Len w' o (drop (N.to_nat at_) xs) /\ sapart s' o /\ drops w' = drops w /\
          delete_ptr (sdata o) (srest s' w') = srest s w /\ sdata s' = sdata s)
       \/ (r = Panic PUnwrap /\ s' = s /\ srep Cap w' s xs /\ skeeps s w s w' [] /\ refuses)).
  Proof.
    intros Hr Hat Hf. pose proof (srep_len Hz Cap HCap _ _ _ Hr) as (Hl&Hlc&Hcb).
    unfold sv_split_off_into. rewrite bind_get_fst, Hl, (proj2 (N.ltb_lt _ _)) by done.
    rewrite bind_usub by lia.
    destruct (with_capacity_sok Hz Len w (llen xs - at_) (proj1 Hr)) as (r&w1&He&Hcase).
    { eapply (fits_le Hz); [|exact Hf]. lia. }
    destruct Hcase as [(o&->&Hro&Hb&Hco&_)|(->&Hst&Hrf)].
    2: { erewrite bind_Panic by (apply on_snd_Ret; exact He). eexists _, s, w1. split; [reflexivity|]. right.
         split; [done|]. split; [done|]. destruct Hst as (Hh&Hd&Hcu&Hn&Hw). split; [|split; [|done]].
         - destruct Hr as [_ Hr]. split; [done|]. destruct s as [[k|v] m]; simpl in *; [done|].
           destruct Hr as [Hl' [rest (_&Hsl'&Hbd&Hdd)]]. split; [done|]. exists rest. unfold owns. rewrite Hh.
           split_and!; try done. destruct (vdata v); [done|]. destruct Hdd as (?&?&?). split_and!; try done. lia.
         - unfold skeeps, srest. by rewrite Hh. }
    erewrite bind_Ret by (apply on_snd_Ret; exact He).
    destruct (sborn_other Hz Len Cap _ _ _ _ _ _ _ Hr Hb Hro) as [Hr1 Hap].
    unfold store_copy. rewrite sz_pos, orb_false_l by done.
    rewrite (proj2 (N.eqb_neq _ _)) by lia.
    pose proof (store_out_ok Hz Cap w1 s xs at_ (llen xs - at_) Hr1 ltac:(lia) ltac:(lia)) as Hout.
    rewrite take_ge in Hout by (rewrite drop_length; lia).
    assert (llen (drop (N.to_nat at_) xs) = llen xs - at_) as Hlt by (rewrite drop_length; lia).
    destruct (store_in_ok Hz Len w1 o [] (drop (N.to_nat at_) xs) Hro) as (d&w2&Hin&Hset&Hro2&Hko&_).
    { simpl llen. rewrite Hlt. lia. } { intros E. rewrite E in Hlt. simpl in Hlt. lia. }
    change (llen []) with 0 in *. rewrite N.add_0_l, Hlt in *. simpl in Hro2.
    erewrite bind_Ret.
    2: { apply on_snd_Ret. erewrite bind_Ret by exact Hout. exact Hin. }
    rewrite bind_usub by lia.
    assert (sapart o s) as Hap'.
    { unfold sapart in *. destruct (sdata o), (sdata s); congruence. }
    destruct (sframe Hz Cap w1 o w2 _ s xs [] Hr1 Hap' Hko (proj1 Hro2)) as [Hr2 Hap2].
    assert (sv_set_len Cap (llen xs - (llen xs - at_)) (s, w2) =
      (Ret tt, (SVec (with_len (sv_store s) at_) (sv_marker s), w2))) as Hsl.
    { replace (llen xs - (llen xs - at_)) with at_ by lia. destruct Hr2 as [_ Hr2].
      destruct s as [[k|v] m]; simpl in Hr2; unfold sv_set_len.
      - apply redirect_stack, (sk_set_len_eq Hz). unfold sv_capacity in Hlc. simpl in Hlc. lia.
      - apply redirect_heap. destruct Hr2 as [_ [rest Ho]]. apply (vec_set_len_eq Hz _ _ _ _ Ho).
        rewrite app_length, fmap_length. lia. }
    erewrite bind_Ret by exact Hsl.
    erewrite bind_Ret by (apply on_snd_Ret; eapply with_local_Ret_s; exact Hset).
    eexists _, _, w2. split; [reflexivity|]. left. cbn [snd].
    eexists. split; [reflexivity|]. pose proof (with_len_srep Hz Cap w2 s xs at_ Hr2 ltac:(lia)) as Hr3.
    split; [exact Hr3|]. split; [exact Hro2|].
    assert (sdata (SVec (with_len (sv_store s) at_) (sv_marker s)) = sdata s) as Hsd.
    { unfold sdata. simpl. by destruct (sv_store s). }
    split.
    { unfold sapart in *. rewrite Hsd. destruct (sdata s), (sdata (SVec (with_len d _) _)); congruence. }
    destruct Hb as (Hb1&Hb2&_). destruct Hko as (Hk1&Hk2&_). split.
    { by rewrite Hk2, Hb2, !app_nil_r. }
    split; [|done]. unfold srest in *. rewrite Hsd, delete_ptr_comm, Hk1, Hb1. done.
  Qed.
  Lemma split_off_bad w s xs at_ :
    srep Cap w s xs -> llen xs <= at_ -> sv_split_off_into Cap Len at_ (s, w) = (Panic PUnwrap, (s, w)).
  Proof.
    intros Hr Hat. pose proof (srep_len Hz Cap HCap _ _ _ Hr) as (Hl&_).
    unfold sv_split_off_into. rewrite bind_get_fst, Hl, (proj2 (N.ltb_ge _ _)) by done. done.
  Qed.
End small_split.
