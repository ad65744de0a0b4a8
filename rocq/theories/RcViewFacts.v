(** Proofs of the statements on looking at a value through [Rc] and [Weak]. *)
From Verif Require Export RcFacts RcViewModel.
From Coq Require Export Ascii String.
From Coq Require Import ZifyBool ZifyNat ZifyN.

(** The characters of a literal. *)
Fixpoint chars_of (s : string) : list N :=
  match s with EmptyString => [] | String a s => N_of_ascii a :: chars_of s end.

Section aux.
  Context {EN : Env} {T : Type} {EL : Elem T}.
  Local Existing Instance box_elem.
  Implicit Types (w : world (rcbox T)).

  Lemma reads_as_ref n0 tab w i (p : sptr) x : inv n0 (tab, ([], w)) -> tab !! i = Some (Some (HRc p)) ->
    reads i (tab, ([], w)) = Ret (RGot x) -> rc_as_ref p ([], w) = (Ret x, ([], w)).
  Proof.
    intros Hinv Hi H. destruct (inv_get _ tab w i p Hinv Hi) as (b&n&v&Eb&_&_&Hbox&_).
    unfold reads, rexec in H. erewrite with_rc_some in H by done. destruct v as [y|].
    - erewrite bind_Ret in H by (apply on_snd_Ret; by eapply rc_as_ref_ok).
      injection H as ->. by eapply rc_as_ref_ok.
    - by erewrite bind_UB in H by (apply on_snd_Ret; by eapply rc_as_ref_moved).
  Qed.
End aux.

(** * C98 *)

(** Comparing, hashing and formatting through [Rc] is comparing, hashing and formatting the values
    that dereferencing gives, after any history, and changes nothing. *)
Lemma p_C98_compare : forall (EN : Env) (T : Type) (EL : Elem T) w0 ops tab d (w : world (rcbox T))
    i j p q x y (C : Type) (f : T -> T -> C),
  rc_reached w0 ops tab d w -> tab !! i = Some (Some (HRc p)) -> tab !! j = Some (Some (HRc q)) ->
  reads i (tab, (d, w)) = Ret (RGot x) -> reads j (tab, (d, w)) = Ret (RGot y) ->
  rc_cmp f p q (d, w) = (Ret (f x y), (d, w)).
Proof.
  intros EN T EL w0 ops tab d w i j p q x y C f Hre Hi Hj Hx Hy.
  destruct (rc_reached_inv _ _ _ _ _ Hre) as (Hinv&->&_).
  unfold rc_cmp. erewrite bind_Ret by (by eapply reads_as_ref).
  by erewrite bind_Ret by (by eapply reads_as_ref).
Qed.
Lemma x_C98_compare_ex :
  @rc_reached env_debug N num_drop wr_start ops_rc (rtab env_debug ops_rc) (rdrops env_debug ops_rc)
    (rworld env_debug ops_rc) /\
  @reads env_debug N num_drop 0 (snd (rdemo env_debug ops_rc)) = Ret (RGot 5) /\
  @reads env_debug N num_drop 3 (snd (rdemo env_debug ops_rc)) = Ret (RGot 8) /\
  match rtab env_debug ops_rc !! 0%nat, rtab env_debug ops_rc !! 3%nat with
  | Some (Some (HRc p)), Some (Some (HRc q)) =>
      fst (@rc_cmp N num_drop _ N.compare p q (snd (snd (rdemo env_debug ops_rc)))) = Ret Lt
  | _, _ => False
  end.
Proof. split; [by apply rdemo_reached|]. by vm_compute. Qed.
Lemma p_C98_hash_fmt : forall (EN : Env) (T : Type) (EL : Elem T) w0 ops tab d (w : world (rcbox T))
    i p x (H : Type) (hash : H -> T -> H) h fmt,
  rc_reached w0 ops tab d w -> tab !! i = Some (Some (HRc p)) ->
  reads i (tab, (d, w)) = Ret (RGot x) ->
  rc_hash hash h p (d, w) = (Ret (hash h x), (d, w)) /\ rc_fmt fmt p (d, w) = (Ret (fmt x), (d, w)).
Proof.
  intros EN T EL w0 ops tab d w i p x H hash h fmt Hre Hi Hx.
  destruct (rc_reached_inv _ _ _ _ _ Hre) as (Hinv&->&_). unfold rc_hash, rc_fmt.
  split; by erewrite bind_Ret by (by eapply reads_as_ref).
Qed.
Lemma x_C98_hash_fmt_ex :
  @rc_reached env_debug N num_drop wr_start ops_rc (rtab env_debug ops_rc) (rdrops env_debug ops_rc)
    (rworld env_debug ops_rc) /\
  @reads env_debug N num_drop 5 (snd (rdemo env_debug ops_rc)) = Ret (RGot 5).
Proof. split; [by apply rdemo_reached|]. by vm_compute. Qed.

(** * C99 *)

(** Full statement: [Debug] of a [Weak] writes "(Weak(v))" with the shared value [v] while an [Rc] is
    alive, "(Weak deallocated)" afterwards, and "(Weak null)" for one made by [Weak::new]; it never
    looks at a value that is gone.  Proved for histories that orphan no value; false afterwards
    ([C99_weak_debug_refuted]). *)
Lemma p_C99_weak_debug_partial : forall (EN : Env) (T : Type) (EL : Elem T) w0 ops st tab d
    (w : world (rcbox T)) i o fmt,
  rc_follows w0 ops st tab d w -> s_tab st !! i = Some (Some (SWeak o)) ->
  exists o', tab !! i = Some (Some (HWeak o')) /\
    match o with
    | None => weak_fmt fmt o' (d, w) = (Ret (chars_of "(Weak null)"), (d, w))
    | Some c => exists x, s_cells st !! c = Some (Some x) /\ 1 <= strong_of st c /\
        weak_fmt fmt o' (d, w) = (Ret (chars_of "(Weak(" ++ fmt x ++ chars_of "))"), (d, w))
    end.
Proof.
  intros EN T EL w0 ops st tab d w i o fmt Hfo Hi.
  destruct (rc_follows_R _ _ _ _ _ _ Hfo) as (HR&->&_&_). destruct o as [c|].
  - destruct (R_get_weak _ _ _ _ _ _ HR Hi) as (p&x&Hp&Eb&Hs&_&Hx&Hbox).
    exists (Some p). split; [done|]. exists x. split; [done|]. split; [done|].
    unfold weak_fmt. erewrite bind_Ret by (by eapply rc_inner_ok).
    unfold is_dealloc. cbn [r_strong r_val]. destruct (N.eqb_spec (strong_of st c) 0) as [E|_]; [clear -E Hs; lia|].
    done.
  - exists None. split; [by eapply R_get_null|]. done.
Qed.
Lemma x_C99_weak_debug_ex :
  @rc_follows env_debug N num_drop wr_start ops_rc st_rc (rtab env_debug ops_rc) (rdrops env_debug ops_rc)
    (rworld env_debug ops_rc) /\ s_tab st_rc !! 2%nat = Some (Some (SWeak (Some 0%nat))) /\
  s_tab st_rc !! 6%nat = Some (Some (SWeak None)).
Proof. split; [|done]. apply follows_rc. Qed.
(** After the last [Rc] was dropped the value is still written; after it was moved out of the box by
    [try_unwrap] the moved-out value is read. *)
Lemma p_C99_weak_debug_refuted :
  (exists tab d w p, @rc_reached env_debug N num_drop wr_start [RNew 5; RDowngrade 0; RDrop 0] tab d w /\
     tab = [None; Some (HWeak (Some p))] /\
     fst (@weak_fmt N num_drop (fun x => [48 + x]) (Some p) (d, w)) = Ret (chars_of "(Weak(5))")) /\
  (exists tab d w p, @rc_reached env_debug N num_drop wr_start [RNew 5; RDowngrade 0; RTryUnwrap 0] tab d w /\
     tab = [None; Some (HWeak (Some p))] /\
     fst (@weak_fmt N num_drop (fun x => [48 + x]) (Some p) (d, w)) = UB UseAfterMove).
Proof.
  split.
  - eexists (rtab env_debug [RNew 5; RDowngrade 0; RDrop 0]), (rdrops env_debug [RNew 5; RDowngrade 0; RDrop 0]),
      (rworld env_debug [RNew 5; RDowngrade 0; RDrop 0]), _.
    split; [by apply rdemo_reached|]. split; [by vm_compute|by vm_compute].
  - eexists (rtab env_debug [RNew 5; RDowngrade 0; RTryUnwrap 0]), (rdrops env_debug [RNew 5; RDowngrade 0; RTryUnwrap 0]),
      (rworld env_debug [RNew 5; RDowngrade 0; RTryUnwrap 0]), _.
    split; [by apply rdemo_reached|]. split; [by vm_compute|by vm_compute].
Qed.

(** After any history at all: a [Weak] of a box whose strong count is zero is shown as deallocated,
    without looking at the value. *)
Lemma p_C99_dead_partial : forall (EN : Env) (T : Type) (EL : Elem T) tab d
    (w : world (rcbox T)) i p k fmt,
  tab !! i = Some (Some (HWeak (Some p))) ->
  fst (rexec (RWCounts i) (tab, (d, w))) = Ret (RNums 0 k) ->
  weak_fmt fmt (Some p) (d, w) = (Ret (chars_of "(Weak deallocated)"), (d, w)).
Proof.
  intros EN T EL tab d w i p k fmt Hi Hc. destruct (weak_zero_inner _ _ _ _ _ _ Hi Hc) as (b&E&Hb).
  unfold weak_fmt. erewrite bind_Ret by exact E. unfold is_dealloc. by rewrite Hb.
Qed.
Lemma x_C99_dead_ex :
  exists tab d w p, @rc_reached env_debug N num_drop wr_start [RNew 5; RDowngrade 0; RMakeMut 0 6] tab d w /\
    tab !! 1%nat = Some (Some (HWeak (Some p))) /\
    fst (@rexec env_debug N num_drop (RWCounts 1) (tab, (d, w))) = Ret (RNums 0 1).
Proof. exact x_C51_dead_ex. Qed.
