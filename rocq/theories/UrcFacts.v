(** Proofs of the statements on [Urc]. *)
From Verif Require Export UrcProofs2.
From Coq Require Import ZifyBool ZifyNat ZifyN.

Section aux.
  Context {PR : Profile} {T : Type}.
  Notation conf := (uconf T).
  Implicit Types (c : conf) (h : uhandle) (f : nat) (p : upc) (x : fence) (l : ulabel T).

  (** The log only grows. *)
  Definition extends c c' : Prop := exists es, u_log c' = u_log c ++ es.
  Lemma ext_refl c c' : u_log c' = u_log c -> extends c c'.
  Proof. intros H. exists []. by rewrite H, app_nil_r. Qed.
  Lemma ext_say c c' e : extends c c' -> extends c (say e c').
  Proof. intros [es H]. exists (es ++ [e]). simpl. by rewrite H, app_assoc. Qed.

  Lemma ustep_extends l c c' : ustep l c = Some c' -> extends c c'.
  Proof.
    intros Hst. destruct l as [i k|i k|i flag|i y|i|i|i]; simpl in Hst;
      destruct (u_hs c !! i) as [[f p]|]; try done.
    3: unfold step in Hst; simpl in Hst.
    all: destruct p; try done.
    all: repeat (case_match; try done); simplify_eq.
    all: unfold call1, with_fence, checked, inc_strong, inc_weak, dec_strong, dec_weak, free_fence, drop_in_place; simpl;
      repeat case_match; repeat apply ext_say; by apply ext_refl.
  Qed.
  Lemma extends_hap q c c' : extends c c' -> happened q c <= happened q c'.
  Proof. intros [es H]. unfold happened. rewrite H, cnt_app. lia. Qed.
  Lemma urun_extends ls c c' : urun ls c = Some c' -> extends c c'.
  Proof.
    revert c. induction ls as [|l ls IH]; intros c H; simpl in H.
    - injection H as <-. by apply ext_refl.
    - destruct (ustep l c) as [c1|] eqn:E; [|done]. destruct (ustep_extends _ _ _ E) as [e1 H1].
      destruct (IH _ H) as [e2 H2]. exists (e1 ++ e2). by rewrite H2, H1, app_assoc.
  Qed.

  Lemma urun_app ls ls' c : urun (ls ++ ls') c = match urun ls c with Some c' => urun ls' c' | None => None end.
  Proof.
    revert c. induction ls as [|l ls IH]; intros c; [done|]. simpl. destruct (ustep l c); [|done]. apply IH.
  Qed.

  Lemma init_inv (x : T) : UInv 1 (urc_init x).
  Proof.
    constructor; simpl; try done.
    - intros [|f] y Hy; [|done]. injection Hy as <-. done.
    - intros [|i] h Hi; [|done]. injection Hi as <-. simpl. split; [lia|done].
    - intros f. unfold count, onf. simpl. rewrite andb_false_r. lia.
    - intros [|i] h Hi; [|done]. injection Hi as <-. done.
    - intros [|i] h Hi; [|done]. injection Hi as <-. done.
  Qed.
  Lemma run_inv ls n c c' :
    UInv n c -> n + llen ls + 7 <= usize_max -> urun ls c = Some c' -> happened is_zeroing c' = 0 ->
    UInv (n + llen ls) c'.
  Proof.
    revert n c. induction ls as [|l ls IH]; intros n c HI Hn Hr Hz; simpl in Hr.
    - injection Hr as <-. simpl. by rewrite N.add_0_r.
    - destruct (ustep l c) as [c1|] eqn:E; [|done].
      pose proof (extends_hap is_zeroing _ _ (urun_extends _ _ _ Hr)) as Hm.
      simpl in Hn. assert (HI1 : UInv (n + 1) c1) by (eapply inv_ustep; [done|lia|done|lia]).
      assert (HI2 : UInv (n + 1 + llen ls) c') by (eapply IH; [done|lia|done|done]).
      replace (n + llen (l :: ls)) with (n + 1 + llen ls) by (simpl; lia). done.
  Qed.
  Lemma reached_inv (x : T) ls c : urc_reached x ls c -> happened is_zeroing c = 0 -> exists n, UInv n c /\ n + 7 <= usize_max.
  Proof.
    intros [Hn Hr] Hz. exists (1 + llen ls). split; [|lia]. eapply run_inv; [apply init_inv|lia|done|done].
  Qed.

  (** *** The master is never freed *)
  Definition NF c : Prop :=
    u_mfreed c = false /\ happened is_fm c = 0 /\ happened is_destroy c = 0 /\
    (forall i h, u_hs c !! i = Some h -> u_pc h <> UUFree) /\
    (forall i h, u_hs c !! i = Some h -> u_pc h = UULoadW ->
       exists x, u_fences c !! u_fence h = Some x /\ f_freed x = true).
  Lemma NF_eq c c' : NF c -> u_mfreed c' = u_mfreed c -> u_log c' = u_log c -> u_hs c' = u_hs c ->
    u_fences c' = u_fences c -> NF c'.
  Proof. intros H E1 E2 E3 E4. unfold NF, happened in *. by rewrite E1, E2, E3, E4. Qed.
  Lemma NF_say c e : NF c -> is_fm e = false -> is_destroy e = false -> NF (say e c).
  Proof.
    intros (H1&H2&H3&H4) He1 He2. split; [done|]. rewrite !hap_say, He1, He2, H2, H3. done.
  Qed.
  Lemma NF_goto c i h p : NF c -> p <> UUFree -> p <> UULoadW -> NF (goto i h p c).
  Proof.
    intros (H1&H2&H3&H4&H5) Hp Hp'. split; [done|]. split; [done|]. split; [done|]. simpl.
    split; intros j h' Hj; apply list_lookup_insert_Some in Hj;
      destruct Hj as [(->&<-&_)|[_ Hj]]; simpl; try done; by eauto.
  Qed.
  Lemma NF_add c f p : NF c -> p <> UUFree -> p <> UULoadW -> NF (add_h f p c).
  Proof.
    intros (H1&H2&H3&H4&H5) Hp Hp'. split; [done|]. split; [done|]. split; [done|]. simpl.
    split; intros j h' Hj; apply lookup_app_Some in Hj; destruct Hj as [Hj|[_ Hj]]; try by eauto.
    - apply list_lookup_singleton_Some in Hj. by destruct Hj as [_ <-].
    - apply list_lookup_singleton_Some in Hj. by destruct Hj as [_ <-].
  Qed.
  Lemma NF_set_f c f x x' : NF c -> u_fences c !! f = Some x -> f_freed x = false -> NF (set_f f x' c).
  Proof.
    intros (H1&H2&H3&H4&H5) Hx Fx. split; [done|]. split; [done|]. split; [done|]. split; [done|]. simpl.
    intros j h' Hj E. destruct (H5 _ _ Hj E) as (y&Hy&Fy).
    rewrite list_lookup_insert_ne; [by eauto|]. intros Heq; rewrite Heq in *; congruence.
  Qed.
  Lemma NF_newf c fs : NF c -> NF (set_fences (u_fences c ++ fs) c).
  Proof.
    intros (H1&H2&H3&H4&H5). split; [done|]. split; [done|]. split; [done|]. split; [done|]. simpl.
    intros j h' Hj E. destruct (H5 _ _ Hj E) as (y&Hy&Fy). exists y. split; [|done]. by apply lookup_app_l_Some.
  Qed.
  Lemma NF_step l c c' : NF c -> ustep l c = Some c' -> NF c'.
  Proof.
    intros HN Hst. pose proof HN as (H1&H2&H3&H4&H5).
    destruct l as [i k|i k|i flag|i y|i|i|i]; simpl in Hst;
      destruct (u_hs c !! i) as [[f p]|] eqn:Hi; try done.
    3: unfold step in Hst; simpl in Hst.
    all: destruct p; try done.
    all: try (by destruct (H4 _ _ Hi)).
    all: repeat (case_match; try done); simplify_eq.
    all: unfold call1, with_fence, checked, inc_strong, inc_weak, dec_strong, dec_weak, free_fence, drop_in_place; simpl;
      repeat case_match; try done;
      lazymatch goal with
      | |- context [UULoadW] => idtac
      | |- _ =>
      repeat first
        [ exact HN
        | apply NF_say; [|done|done]
        | apply NF_goto; [|try done; by destruct k|try done; by destruct k]
        | apply NF_add; [|done|done]
        | eapply NF_set_f; [|simpl; eassumption|done]
        | match goal with |- NF (set_fences _ ?c1) => apply (NF_newf c1) end
        | eapply NF_eq; [exact HN|done|done|done|done]
        | eapply NF_eq; [apply NF_goto; [exact HN|try done; by destruct k|try done; by destruct k]|done|done|done|done] ]
      end.
    - (* UTake: the fence is freed *)
      split; [done|]. split; [by unfold happened in *; simpl; rewrite !cnt_snoc; simpl; rewrite ?H2|].
      split; [by unfold happened in *; simpl; rewrite !cnt_snoc; simpl; rewrite ?H3|]. simpl.
      split.
      + intros j h' Hj. apply list_lookup_insert_Some in Hj. destruct Hj as [(->&<-&_)|[_ Hj]]; [done|by eauto].
      + intros j h' Hj E. apply list_lookup_insert_Some in Hj. destruct Hj as [(->&<-&_)|[_ Hj]]; simpl.
        * eexists. rewrite list_lookup_insert by (by eapply lookup_lt_Some). done.
        * destruct (H5 _ _ Hj E) as (y&Hy&Fy). rewrite list_lookup_insert_ne; [by eauto|]. intros Heq; rewrite Heq in *; congruence.
    - (* UULoadW *)
      exfalso. destruct (H5 _ _ Hi eq_refl) as (y&Hy&Fy). simpl in Hy. congruence.
    - by apply NF_goto.
  Qed.
  Lemma NF_run ls c c' : NF c -> urun ls c = Some c' -> NF c'.
  Proof.
    revert c. induction ls as [|l ls IH]; intros c HN Hr; simpl in Hr.
    - by injection Hr as <-.
    - destruct (ustep l c) as [c1|] eqn:E; [|done]. eapply IH; [|done]. by eapply NF_step.
  Qed.
  Lemma NF_init (x : T) : NF (urc_init x).
  Proof.
    split; [done|]. split; [done|]. split; [done|].
    split; intros [|i] h Hi; simpl in Hi; try done; by injection Hi as <-.
  Qed.

  (** *** Sharing runs *)
  Definition share_pc p : bool :=
    match p with
    | UCas | UTake | UULoadW | UUFree | UM0 | UM1 | UMLoad | UMInc _ | UMWeak | UMTake | UMStore | UMNew | UMClone | UMNewC => false
    | _ => true
    end.
  Definition SH c : Prop := happened is_zeroing c = 0 /\ forall i h, u_hs c !! i = Some h -> share_pc (u_pc h) = true.
  Lemma SH_eq c c' : SH c -> u_log c' = u_log c -> u_hs c' = u_hs c -> SH c'.
  Proof. intros H E1 E2. unfold SH, happened in *. by rewrite E1, E2. Qed.
  Lemma SH_say c e : SH c -> is_zeroing e = false -> SH (say e c).
  Proof. intros (H1&H2) He. split; [|done]. by rewrite hap_say, He, H1. Qed.
  Lemma SH_goto c i h p : SH c -> share_pc p = true -> SH (goto i h p c).
  Proof.
    intros (H1&H2) Hp. split; [done|]. simpl. intros j h' Hj. apply list_lookup_insert_Some in Hj.
    destruct Hj as [(->&<-&_)|[_ Hj]]; simpl; by eauto.
  Qed.
  Lemma SH_add c f p : SH c -> share_pc p = true -> SH (add_h f p c).
  Proof.
    intros (H1&H2) Hp. split; [done|]. simpl. intros j h' Hj. apply lookup_app_Some in Hj.
    destruct Hj as [Hj|[_ Hj]]; [by eauto|]. apply list_lookup_singleton_Some in Hj. by destruct Hj as [_ <-].
  Qed.
  Lemma SH_step l c c' : SH c -> sharing l = true -> ustep l c = Some c' -> SH c'.
  Proof.
    intros HN Hsh Hst. pose proof HN as (H1&H2).
    destruct l as [i k|i k|i flag|i y|i|i|i]; simpl in Hst;
      destruct (u_hs c !! i) as [[f p]|] eqn:Hi; try done.
    3: unfold step in Hst; simpl in Hst.
    all: pose proof (H2 _ _ Hi) as Hp; destruct p; try done.
    all: repeat (case_match; try done); simplify_eq.
    all: unfold call1, with_fence, checked, inc_strong, inc_weak, dec_strong, dec_weak, free_fence, drop_in_place; simpl;
      repeat case_match; try done;
      repeat first
        [ exact HN
        | apply SH_say; [|done]
        | apply SH_goto; [|try done; by destruct k]
        | apply SH_add; [|done]
        | eapply SH_eq; [exact HN|done|done]
        | eapply SH_eq; [apply SH_goto; [exact HN|try done; by destruct k]|done|done]
        | eapply (SH_eq (add_h _ _ _)); [apply SH_add; [|done]|done|done] ].
  Qed.
  Lemma SH_run ls c c' : SH c -> forallb sharing ls = true -> urun ls c = Some c' -> SH c'.
  Proof.
    revert c. induction ls as [|l ls IH]; intros c HN Hs Hr; simpl in *.
    - by injection Hr as <-.
    - apply andb_true_iff in Hs. destruct Hs as [Hl Hs].
      destruct (ustep l c) as [c1|] eqn:E; [|done]. eapply IH; [|done|done]. by eapply SH_step.
  Qed.
  Lemma SH_init (x : T) : SH (urc_init x).
  Proof. split; [done|]. intros [|i] h Hi; simpl in Hi; try done; by injection Hi as <-. Qed.
  Lemma sharing_zero (x : T) ls c : urc_reached x ls c -> forallb sharing ls = true -> happened is_zeroing c = 0.
  Proof. intros [_ Hr] Hs. eapply (SH_run ls); [apply SH_init|done|done]. Qed.

  (** *** The value *)
  Definition wrote l (v : T) : T := match l with LEndMut _ y => y | _ => v end.
  Lemma val_step l c c' : ustep l c = Some c' -> happened is_bad c' = happened is_bad c -> u_val c' = wrote l (u_val c).
  Proof.
    intros Hst Hb. destruct l as [i k|i k|i flag|i y|i|i|i]; simpl in Hst;
      destruct (u_hs c !! i) as [[f p]|]; try done.
    3: unfold step in Hst; simpl in Hst.
    4: { destruct p; try done. unfold checked in Hst. destruct (val_ok c); simplify_eq; [done|]. rewrite hap_say in Hb. simpl in Hb. lia. }
    all: destruct p; try done.
    all: repeat (case_match; try done); simplify_eq.
    all: unfold call1, with_fence, checked, inc_strong, inc_weak, dec_strong, dec_weak, free_fence, drop_in_place; simpl;
      repeat case_match; try done.
    all: try (unfold checked in Hb; simpl in Hb; destruct (val_ok c); [done|]; rewrite hap_say in Hb; simpl in Hb; lia).
  Qed.
  Lemma val_run ls c c' : urun ls c = Some c' -> happened is_bad c' = happened is_bad c ->
    u_val c' = last_written (u_val c) ls.
  Proof.
    revert c. induction ls as [|l ls IH]; intros c Hr Hb; simpl in Hr.
    - by injection Hr as <-.
    - destruct (ustep l c) as [c1|] eqn:E; [|done].
      pose proof (extends_hap is_bad _ _ (ustep_extends _ _ _ E)).
      pose proof (extends_hap is_bad _ _ (urun_extends _ _ _ Hr)).
      rewrite (IH _ Hr) by lia. rewrite (val_step _ _ _ E) by lia. by destruct l.
  Qed.
End aux.
