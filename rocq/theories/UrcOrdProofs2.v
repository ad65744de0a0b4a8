(** What the steps of [UrcModel] do, whatever values the counters of the master are thought to have. *)
From Verif Require Export UrcOrdProofs.
From Coq Require Import ZifyBool ZifyNat ZifyN.

Section ord_steps.
  Context {PR : Profile} {T : Type}.
  Notation conf := (uconf T).
  Notation xconf := (xconf T).
  Implicit Types (c : conf) (w : xconf) (h : uhandle) (tv : tview) (l : ulabel T) (f : nat) (x : fence).

  Definition is_open c f : Prop := exists x, u_fences c !! f = Some x /\ f_freed x = false.

  Lemma hs_set_counter k n c : u_hs (set_counter k n c) = u_hs c. Proof. by destruct k. Qed.
  Lemma fs_set_counter k n c : u_fences (set_counter k n c) = u_fences c. Proof. by destruct k. Qed.
  Lemma log_set_counter k n c : u_log (set_counter k n c) = u_log c. Proof. by destruct k. Qed.
  Lemma hap_set_counter q k n c : happened q (set_counter k n c) = happened q c. Proof. by destruct k. Qed.
  Lemma set_counter_id k c : set_counter k (counter k c) c = c. Proof. by destruct k, c. Qed.
  Lemma A_set_counter k n c : A (set_counter k n c) = A c. Proof. by destruct k. Qed.
  Lemma open_set_counter k n c f : is_open (set_counter k n c) f <-> is_open c f.
  Proof. unfold is_open. by rewrite fs_set_counter. Qed.

  Ltac cases Hst :=
    lazymatch type of Hst with ustep ?l ?c = Some _ =>
      destruct l; simpl in Hst;
      let i := lazymatch type of Hst with context [u_hs c !! ?i] => i end in
      let f := fresh "f" in let p := fresh "p" in
      destruct (u_hs c !! i) as [[f p]|] eqn:Hi; try done;
      try (unfold step in Hst; simpl in Hst);
      destruct p; try done;
      repeat (case_match; try done); simplify_eq
    end.
  Ltac unf := unfold call1, with_fence, checked, inc_strong, inc_weak, dec_strong, dec_weak, free_fence, drop_in_place; simpl;
    repeat case_match; simplify_eq; simpl.

  (** The other handles stay as they are; new ones are not in use. *)
  Lemma ustep_hs_old l c c' j h : ustep l c = Some c' -> j <> who l -> u_hs c !! j = Some h -> u_hs c' !! j = Some h.
  Proof.
    intros Hst Hj HH. cases Hst; simpl in Hj; unf; rewrite ?list_lookup_insert_ne by done; try done.
    all: apply lookup_app_l_Some; by rewrite ?list_lookup_insert_ne by done.
  Qed.
  Lemma ustep_hs_new l c c' j h : ustep l c = Some c' -> j <> who l -> u_hs c' !! j = Some h ->
    u_hs c !! j = Some h \/ u_pc h = UHeld \/ u_pc h = WHeld.
  Proof.
    intros Hst Hj HH. cases Hst; simpl in Hj; revert HH; unf; intros HH; rewrite ?list_lookup_insert_ne in HH by done;
      try by left.
    all: apply lookup_app_Some in HH as [HH|[_ HH]]; rewrite ?list_lookup_insert_ne in HH by done; try (by left).
    all: apply list_lookup_singleton_Some in HH as [_ <-]; simpl; tauto.
  Qed.
  Lemma ustep_who l c c' h : ustep l c = Some c' -> u_hs c !! who l = Some h ->
    exists p, u_hs c' !! who l = Some (UH (u_fence h) p).
  Proof.
    intros Hst HH. cases Hst; simpl in HH; apply lookup_lt_Some in HH as Hlt; rewrite Hi in HH; injection HH as <-; simpl; unf;
      try (eexists; by rewrite ?list_lookup_insert by done).
    all: eexists; apply lookup_app_l_Some; rewrite ?list_lookup_insert by done; done.
  Qed.

  (** What happens to the fences. *)
  Lemma ustep_fences l c c' h :
    ustep l c = Some c' -> u_hs c !! who l = Some h -> zpath (u_pc h) = false ->
    u_fences c' = u_fences c \/
    (exists x x', u_fences c !! u_fence h = Some x /\ f_freed x = false /\ u_fences c' = <[u_fence h := x']> (u_fences c) /\
       (f_freed x' = false \/ u_hs c' !! who l = Some (UH (u_fence h) UDSub) \/ A c' <> 0)) \/
    (u_fences c' = u_fences c ++ [Fence 1 0 false] /\ u_pc h = UEnvAlloc).
  Proof.
    intros Hst HH Hz. cases Hst; simpl in HH; apply lookup_lt_Some in HH as Hlt; rewrite Hi in HH; injection HH as <-; simpl in *; try done; unf;
      try (by left); try (right; right; by split).
    all: right; left; do 2 eexists; (split; [first [reflexivity|eassumption]|]); (split; [eassumption|]); (split; [reflexivity|]); simpl.
    all: try (by left).
    all: rewrite ?list_lookup_insert by done; try (right; left; done).
    all: right; right; unfold A; rewrite !hap_say; simpl; lia.
  Qed.
  Lemma ustep_A l c c' : ustep l c = Some c' -> A c <= A c'.
  Proof.
    intros Hst. apply ustep_extends in Hst. unfold A.
    pose proof (extends_hap is_env_fail _ _ Hst). pose proof (extends_hap is_fence_dropped _ _ Hst). lia.
  Qed.

  (** Which values the counters of the master have does not matter for a load of [weak_fence]. *)
  Lemma UInv_wf n k c : UInv n c -> UInv n (set_wf k c).
  Proof. intros []. by constructor. Qed.

  (** With one strong fence, only one fence is open, nothing is pending. *)
  Lemma sole_open n c f g : UInv n c -> u_sf c = 1 -> is_open c f -> is_open c g -> f = g.
  Proof.
    intros HI Hs (x&Hx&Fx) (y&Hy&Fy). destruct (decide (f = g)) as [|Hne]; [done|]. exfalso.
    assert (2 <= cnt open (u_fences c)).
    { eapply (cnt_two open); [exact Hne|exact Hx|exact Hy| |]; unfold open; by rewrite ?Fx, ?Fy. }
    pose proof (i_sf _ _ HI). lia.
  Qed.
  Lemma sole_pend' n c f j h : UInv n c -> u_sf c = 1 -> is_open c f -> u_hs c !! j = Some h -> pend (u_pc h) = true -> False.
  Proof.
    intros HI Hs (x&Hx&Fx) Hj Hp.
    assert (1 <= cnt open (u_fences c)) by (eapply (cnt_lookup open); [exact Hx|]; unfold open; by rewrite Fx).
    pose proof (cnt_lookup (fun h => pend (u_pc h)) _ _ _ Hj Hp). pose proof (i_sf _ _ HI). lia.
  Qed.
  Lemma sole_A n c f : UInv n c -> u_sf c = 1 -> is_open c f -> A c = 0.
  Proof.
    intros HI Hs (x&Hx&Fx).
    assert (1 <= cnt open (u_fences c)) by (eapply (cnt_lookup open); [exact Hx|]; unfold open; by rewrite Fx).
    pose proof (i_sf _ _ HI). lia.
  Qed.
  Lemma two_open n c f g : UInv n c -> f <> g -> is_open c f -> is_open c g -> 2 <= u_sf c.
  Proof.
    intros HI Hne (x&Hx&Fx) (y&Hy&Fy).
    assert (2 <= cnt open (u_fences c)).
    { eapply (cnt_two open); [exact Hne|exact Hx|exact Hy| |]; unfold open; by rewrite ?Fx, ?Fy. }
    pose proof (i_sf _ _ HI). lia.
  Qed.
  Lemma open_pend n c f j h : UInv n c -> is_open c f -> u_hs c !! j = Some h -> pend (u_pc h) = true -> 2 <= u_sf c.
  Proof.
    intros HI (x&Hx&Fx) Hj Hp.
    assert (1 <= cnt open (u_fences c)) by (eapply (cnt_lookup open); [exact Hx|]; unfold open; by rewrite Fx).
    pose proof (cnt_lookup (fun h => pend (u_pc h)) _ _ _ Hj Hp). pose proof (i_sf _ _ HI). lia.
  Qed.

  Ltac hapt := intros; unfold happened; simpl; rewrite ?cnt_snoc; simpl; rewrite ?N.add_0_r; reflexivity.
  (** A load of [strong_fence] that does not return one. *)
  Lemma stale_step n c c1 l h v :
    UInv n c -> u_hs c !! who l = Some h -> action_l l (u_pc h) = ALoad LStrong Acquire \/ action_l l (u_pc h) = ARmw LStrong Acquire Relaxed ->
    v <> 1 -> ustep l (set_sf v c) = Some c1 -> u_sf c1 = v -> UInv (n + 1) (set_sf (u_sf c) c1).
  Proof.
    intros HI Hi Ha Hv Hst Hsf. destruct h as [f p].
    destruct l as [i k|i k|i flag|i y|i|i|i]; simpl in Ha, Hi, Hst; try (by destruct Ha);
      rewrite Hi in Hst.
    - destruct k; simpl in Ha; try (by destruct Ha). destruct p; try done.
      destruct (counted_open _ _ _ _ HI Hi eq_refl) as (x&Hx&Fx). simpl in Hx.
      change (idle f (set_sf v c)) with (idle f c) in Hst. destruct (idle f c) eqn:Hid; [|done]. injection Hst as <-.
      unfold call1. simpl. rewrite (with_fence_ok f x) by done. unfold checked.
      change (mem_ok (set_sf v c)) with (mem_ok c). rewrite (inv_mem _ _ HI).
      eapply (inv_neutral _ _ _ _ _ _ UHeld HI Hi); try reflexivity; try done; try hapt; try lia.
      simpl. by rewrite list_insert_id.
    - assert (Hp : p = UCas \/ p = ULoadS \/ p = UM0 \/ p = UEnvAdd \/ p = WLoadS).
      { destruct p; simpl in Ha; destruct Ha as [Ha|Ha]; try discriminate Ha; tauto. }
      assert (Hop : exists x, u_fences c !! f = Some x /\ f_freed x = false).
      { apply (counted_open _ _ _ _ HI Hi). by destruct Hp as [-> | [->|[-> | [-> | ->]]]]. }
      destruct Hop as (x&Hx&Fx). unfold step in Hst. cbn [u_fence u_pc] in Hst.
      assert (Hm : mem_ok (set_sf v c) = true) by (apply (inv_mem _ _ HI)).
      assert (Hv1 : (v =? 1) = false) by lia.
      destruct Hp as [-> | [->|[-> | [-> | ->]]]]; rewrite ?(with_fence_ok f x) in Hst by done; rewrite Hm in Hst;
        unfold checked in Hst; simpl in Hst; rewrite ?Hv1 in Hst.
      + injection Hst as <-. eapply (inv_neutral _ _ _ _ _ _ UHeld HI Hi); try reflexivity; try done; try hapt; lia.
      + injection Hst as <-. eapply (inv_neutral _ _ _ _ _ _ UHeld HI Hi); try reflexivity; try done; try hapt; lia.
      + injection Hst as <-. eapply (inv_neutral _ _ _ _ _ _ UMClone HI Hi); try reflexivity; try done; try hapt; try lia.
      + injection Hst as <-. exfalso. simpl in Hsf. unfold wadd in Hsf.
        clear -Hsf. destruct (N.ltb_spec v (2 ^ 64)).
        * destruct (N.eq_dec (v + 1) (2 ^ 64)) as [E|E]; [rewrite E, N.mod_same in Hsf by done; subst v; done|].
          rewrite N.mod_small in Hsf by lia. lia.
        * pose proof (N.mod_lt (v + 1) (2 ^ 64) ltac:(done)). lia.
      + pose proof (i_dead _ _ HI _ _ Hi eq_refl) as Hdead.
        destruct (v =? 0); unfold drop_in_place in Hst; injection Hst as <-;
          eapply (inv_neutral _ _ _ _ _ _ WLeaked HI Hi); try reflexivity; try done; lia.
  Qed.
End ord_steps.
