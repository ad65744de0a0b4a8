(** Proofs of the statements on [Rc<dyn Any>::downcast]. *)
From Verif Require Export RcFacts CastModel.
From Coq Require Import ZifyBool ZifyNat ZifyN.
Local Existing Instance box_elem.

(** * C108 *)

(** Full statement: [downcast] turns a handle into a handle of the other type, or gives it back, and
    changes nothing else; in particular the counts stay the numbers of handles.  Proved for a value
    of another type and for the only handle; otherwise false ([C108_downcast_refuted]). *)
Lemma p_C108_downcast_partial : forall (EN : Env) (T : Type) (EL : Elem T) w0 ops st tab d
    (w : world (rcbox T)) i c is,
  rc_follows w0 ops st tab d w -> s_tab st !! i = Some (Some (SRc c)) ->
  exists p x, tab !! i = Some (Some (HRc p)) /\ s_cells st !! c = Some (Some x) /\
    (is x = false -> rc_downcast is p (d, w) = (Ret (inr p), (d, w))) /\
    (is x = true -> strong_of st c = 1 -> rc_downcast is p (d, w) = (Ret (inl p), (d, w))).
Proof.
  intros EN T EL w0 ops st tab d w i c is Hfo Hi.
  destruct (rc_follows_R _ _ _ _ _ _ Hfo) as (HR&->&_&_).
  destruct (R_get _ _ _ _ _ _ HR Hi) as (p&x&Hp&Eb&Hs&Hx&Hbox).
  exists p, x. split; [done|]. split; [done|]. unfold rc_downcast.
  split; [intros Hf|intros Hf H1]; erewrite bind_Ret by (by eapply rc_as_ref_ok); rewrite Hf; [done|].
  erewrite bind_Ret by (by eapply rc_drop_ok). cbn [r_strong r_weak r_val]. rewrite H1 in Hbox |- *.
  unfold ret. do 2 f_equal. change (dropped 1) with 1. unfold setb. by rewrite set_slots_same.
Qed.
Lemma x_C108_downcast_ex :
  @rc_follows env_debug N num_drop wr_start ops_rc st_rc (rtab env_debug ops_rc) (rdrops env_debug ops_rc)
    (rworld env_debug ops_rc) /\
  s_tab st_rc !! 0%nat = Some (Some (SRc 0)) /\ s_tab st_rc !! 3%nat = Some (Some (SRc 1)) /\
  strong_of st_rc 0 = 2 /\ strong_of st_rc 1 = 1.
Proof. split; [apply follows_rc|by split_and!; vm_compute]. Qed.

(** Any handle that is not the only one: [self] is dropped although the new handle takes its place, so the
    count is one less than the number of handles. *)
Lemma p_C108_downcast_refuted : forall (EN : Env) (T : Type) (EL : Elem T) w0 ops st tab d
    (w : world (rcbox T)) i c is x,
  rc_follows w0 ops st tab d w -> s_tab st !! i = Some (Some (SRc c)) -> s_cells st !! c = Some (Some x) ->
  is x = true -> 2 <= strong_of st c ->
  exists p w', tab !! i = Some (Some (HRc p)) /\ rc_downcast is p (d, w) = (Ret (inl p), (d, w')) /\
    rc_strong_count p (d, w') = (Ret (strong_of st c - 1), (d, w')).
Proof.
  intros EN T EL w0 ops st tab d w i c is x Hfo Hi Hx Ht H2.
  destruct (rc_follows_R _ _ _ _ _ _ Hfo) as (HR&->&_&_).
  destruct (R_get _ _ _ _ _ _ HR Hi) as (p&x'&Hp&Eb&Hs&Hx'&Hbox). rewrite Hx in Hx'. injection Hx' as <-.
  eexists p, _. split; [done|]. split.
  - unfold rc_downcast. erewrite bind_Ret by (by eapply rc_as_ref_ok). rewrite Ht.
    by erewrite bind_Ret by (by eapply rc_drop_ok).
  - erewrite rc_strong_count_ok; [|done|by eapply box_at_setb]. cbn [r_strong]. unfold dropped.
    destruct (N.eqb_spec (strong_of st c) 1); [clear -e H2; lia|done].
Qed.
(** With two handles, [get_mut] of either then gives a mutable reference to what the other reads. *)
Lemma p_C108_shared_mut_refuted : exists tab d w p q w1 w2 o,
  @rc_reached env_debug N num_drop wr_start [RNew 5; RClone 0] tab d w /\
  tab = [Some (HRc p); Some (HRc q)] /\
  @rc_downcast env_debug N num_drop (fun _ => true) q (d, w) = (Ret (inl o), (d, w1)) /\
  @rc_get_mut N num_drop p 6 (d, w1) = (Ret (Some 5), (d, w2)) /\ fst (@rc_as_ref N num_drop o (d, w2)) = Ret 6.
Proof.
  eexists (rtab env_debug [RNew 5; RClone 0]), (rdrops env_debug [RNew 5; RClone 0]),
    (rworld env_debug [RNew 5; RClone 0]), _, _, _, _, _.
  split; [by apply rdemo_reached|]. split; [by vm_compute|]. split; [by vm_compute|].
  split; [by vm_compute|by vm_compute].
Qed.
