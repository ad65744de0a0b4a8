(** Proofs of the statements collected in PropertiesCalmArc.v: [Arc] without [make_mut]. *)
From Verif Require Export SpecCalmArc ArcFacts.
From Coq Require Import ZifyBool ZifyNat ZifyN.
Ltac Zify.zify_post_hook ::= idtac.

Local Ltac hap := autorewrite with hap; simpl; rewrite ?N.add_0_r.

Section calm_arc.
  Context {PR : Profile} {T : Type}.
  Implicit Types (c : aconf T) (ls : list (alabel T)).

  Definition plain_x (x : xpc) : bool :=
    match x with
    | XM0 | XM1 _ | XMInc _ | XMZero | XMTake | XMNew | XMClone | XMNewC | XDropMoved => false
    | _ => true
    end.
  Definition small_s (n : N) (s : spc) : Prop := match s with SClone1 old => old <= n | _ => True end.
  Definition plain_h (n : N) (h : ahandle) : Prop := plain_x (h_ex h) = true /\ Forall (small_s n) (h_sh h).

  (** Which events a plain step can add. *)
  Lemma plain_step n l c c' :
    astep l c = Some c' -> (forall i, l <> LBeginX i CMakeMut) -> Forall (plain_h n) (a_hs c) ->
    n <= max_refcount -> (forall i h k, a_hs c !! i = Some h -> h_sh h !! k = Some SClone0 -> a_strong c <= n) ->
    Forall (plain_h n) (a_hs c') /\ happened is_lost c' = happened is_lost c /\
    happened is_clone_panic c' = happened is_clone_panic c.
  Proof.
    intros Hs Hl Hp Hn Hst.
    assert (Hset : forall i h, plain_h n h -> Forall (plain_h n) (<[i := h]> (a_hs c))).
    { intros i h Hh. by apply Forall_insert. }
    assert (Hset0 : forall i x, plain_x x = true -> Forall (plain_h n) (<[i := AHandle x []]> (a_hs c))).
    { intros i x Hx. apply Hset. by repeat constructor. }
    assert (Hsh : forall i h k s, a_hs c !! i = Some h -> h_sh h !! k = Some s -> plain_h n h /\ small_s n s).
    { intros i h k s Hi Hk. pose proof (Forall_lookup_1 _ _ _ _ Hp Hi) as Hh. split; [done|].
      exact (Forall_lookup_1 _ _ _ _ (proj2 Hh) Hk). }
    destruct l as [i c0|i c0|i k f|i f|i y|i|]; simpl in Hs.
    - destruct (a_hs c !! i) as [[[] sh]|] eqn:Hi; try done. injection Hs as <-. hap. split; [|done].
      simpl. apply Hset. pose proof (Forall_lookup_1 _ _ _ _ Hp Hi) as [_ Hh]. split; [done|].
      apply Forall_app. split; [done|]. repeat constructor. by destruct c0.
    - destruct (a_hs c !! i) as [[[] [|? ?]]|] eqn:Hi; try done. injection Hs as <-.
      destruct c0; try (by destruct (Hl i)); hap; (split; [|done]); simpl; by apply Hset0.
    - destruct (a_hs c !! i) as [h|] eqn:Hi; [|done]. destruct (h_sh h !! k) as [s|] eqn:Hk; [|done].
      injection Hs as <-. destruct (Hsh _ _ _ _ Hi Hk) as [[Hx Hall] Hsm].
      assert (Hdel : plain_h n (AHandle (h_ex h) (delete k (h_sh h)))).
      { split; [done|]. by apply Forall_delete. }
      assert (Hins : forall s', small_s n s' -> plain_h n (AHandle (h_ex h) (<[k := s']> (h_sh h)))).
      { intros s' Hs'. split; [done|]. by apply Forall_insert. }
      destruct s; simpl in *; unfold checked.
      + destruct (mem_ok c); hap; (split; [|done]); simpl; [|done]. apply Hset, Hins. simpl. by eapply Hst.
      + destruct (N.ltb_spec max_refcount old) as [Hgt|Hle]; [lia|]. hap. split; [|done]. simpl.
        apply Forall_app. split; [by apply Hset|]. by repeat constructor.
      + destruct (val_ok c); [destruct f|]; hap; (split; [|done]); simpl; try done. by apply Hset.
      + destruct (mem_ok c); hap; (split; [|done]); simpl; [|done]. by apply Hset, Hins.
      + destruct (mem_ok c); [|by hap]. destruct (v =? usize_max); [|destruct (negb f && (a_weak c =? v))];
          hap; (split; [|done]); simpl; try done; [by apply Hset, Hins|by apply Hset].
    - destruct (a_hs c !! i) as [[x sh]|] eqn:Hi; [|done]. pose proof (Forall_lookup_1 _ _ _ _ Hp Hi) as [Hx _].
      simpl in Hs. destruct x; simpl in Hx; try done; simpl in Hs; injection Hs as <-; unfold checked;
        repeat case_match; hap; (split; [|done]); simpl; try done; by apply Hset0.
    - destruct (a_hs c !! i) as [[[] [|? ?]]|] eqn:Hi; try done. injection Hs as <-. unfold checked.
      destruct (val_ok c); hap; (split; [|done]); simpl; [by apply Hset0|done].
    - destruct (a_hs c !! i) as [[[] ?]|] eqn:Hi; try done. injection Hs as <-. unfold checked.
      destruct (mem_ok c); by hap.
    - destruct (_ <? _); [|done]. injection Hs as <-. by hap.
  Qed.

  (** Steps one at a time, from the end. *)
  Lemma arun_snoc ls l c c' :
    arun (ls ++ [l]) c = Some c' <-> exists c1, arun ls c = Some c1 /\ astep l c1 = Some c'.
  Proof.
    rewrite arun_app. split; intros (c1&H1&H2); exists c1; (split; [done|]); simpl in *.
    - destruct (astep l c1) as [?|]; [exact H2|done].
    - by rewrite H2.
  Qed.
  Lemma arun_ind (P : list (alabel T) -> aconf T -> Prop) x :
    P [] (arc_init x) ->
    (forall ls l c c', arun ls (arc_init x) = Some c -> P ls c -> astep l c = Some c' -> P (ls ++ [l]) c') ->
    forall ls c, arun ls (arc_init x) = Some c -> P ls c.
  Proof.
    intros H0 HS ls. induction ls as [|l ls IH] using rev_ind; intros c H.
    - simpl in H. by injection H as <-.
    - apply arun_snoc in H as (c1&H1&H2). eapply HS; [exact H1|by apply IH|done].
  Qed.

  Ltac by_run :=
    match goal with |- arun ?ls (arc_init ?x) = Some ?c -> _ => revert ls c;
      match goal with |- forall ls c, _ -> @?P ls c => refine (arun_ind P x _ _); cbv beta end end.

  Lemma shared_PA x ls c i h k s : arc_reached x ls c -> happened is_lost c = 0 ->
    a_hs c !! i = Some h -> h_sh h !! k = Some s -> PA c.
  Proof.
    intros Hr Hl Hi Hk. destruct (reached_inv x ls c Hr Hl) as [(_&_&HP) _].
    destruct HP as [?|[(j&y&Hj&_&Ha&_)|[Hg _]]]; [done| |].
    - destruct (decide (i = j)) as [->|Hne].
      + rewrite Hj in Hi. by injection Hi as <-.
      + by rewrite (Ha _ _ Hne Hi) in Hk.
    - by rewrite (Forall_lookup_1 _ _ _ _ Hg Hi) in Hk.
  Qed.

  Lemma plain_run x ls c : arun ls (arc_init x) = Some c -> plain_arc ls ->
    happened is_lost c = 0 /\ happened is_clone_panic c = 0 /\
    forall n, llen ls + 1 <= n -> Forall (plain_h n) (a_hs c).
  Proof.
    by_run.
    { intros _. split; [done|]. split; [done|]. intros n _. by repeat constructor. }
    intros ls l c c' Hr IH Hs [Hp Hn]. rewrite app_length in Hn. simpl in Hn.
    assert (plain_arc ls) as Hpl.
    { split; [|clear -Hn; lia]. intros i Hi. apply (Hp i), elem_of_app. by left. }
    destruct (IH Hpl) as (E1&E2&E3). clear IH.
    assert (Hre : arc_reached x ls c).
    { split; [|done]. clear -Hn. unfold usize_max, isize_max in *. lia. }
    assert (Hl : forall i, l <> LBeginX i CMakeMut).
    { intros i ->. apply (Hp i), elem_of_app. right. by left. }
    assert (Hb : forall i h k, a_hs c !! i = Some h -> h_sh h !! k = Some SClone0 -> a_strong c <= llen ls + 1).
    { intros i h k Hi Hk. pose proof (shared_PA _ _ _ _ _ _ _ Hre E1 Hi Hk) as (_&_&Hst&_).
      destruct (reached_inv x ls c Hre E1) as [_ Hsz]. unfold asize in Hsz. clear -Hst Hsz. lia. }
    assert (Hmx : max_refcount = isize_max) by done.
    destruct (plain_step (llen ls + 1) l c c' Hs Hl) as (_&H1&H2); [apply E3; lia|clear -Hmx Hn; lia|done|].
    split; [by rewrite H1|]. split; [by rewrite H2|]. intros n Hge. rewrite app_length in Hge. simpl in Hge.
    destruct (N.le_gt_cases n max_refcount) as [Hle|Hgt].
    - eapply (plain_step n); [done|done|apply E3; clear -Hge; lia|done|].
      intros i h k Hi Hk. specialize (Hb i h k Hi Hk). clear -Hb Hge. lia.
    - destruct (plain_step (llen ls + 1) l c c' Hs Hl) as (H3&_&_);
        [apply E3; lia|clear -Hmx Hn; lia|done|].
      eapply Forall_impl; [exact H3|]. intros h [Hx Hh]. split; [done|]. eapply Forall_impl; [exact Hh|].
      intros [] Hsm; simpl in *; try done. clear -Hsm Hge. lia.
  Qed.
  Lemma plain_reached x ls c : arun ls (arc_init x) = Some c -> plain_arc ls ->
    arc_reached x ls c /\ happened is_lost c = 0 /\ happened is_clone_panic c = 0.
  Proof.
    intros Hr Hp. destruct (plain_run _ _ _ Hr Hp) as (H1&H2&_). split; [|done]. split; [|done].
    destruct Hp as [_ Hn]. clear -Hn. unfold usize_max, isize_max in *. lia.
  Qed.

  (** Events that need a certain label. *)
  Lemma forget_run x ls c : arun ls (arc_init x) = Some c -> no_forget ls -> happened is_forget c = 0.
  Proof.
    by_run; [done|].
    intros ls l c c' Hr IH Hs Hp. rewrite <-IH; [|intros i Hi; apply (Hp i), elem_of_app; by left].
    assert (Hl : forall i, l <> LBeginX i CForget).
    { intros i ->. apply (Hp i), elem_of_app. right. by left. }
    clear -Hs Hl. destruct l as [i c0|i c0|i k f|i f|i y|i|]; simpl in Hs.
    - repeat case_match; simplify_eq; by hap.
    - destruct (a_hs c !! i) as [[[] [|? ?]]|]; try done. injection Hs as <-.
      destruct c0; try (by destruct (Hl i)); by hap.
    - destruct (a_hs c !! i) as [h|]; [|done]. destruct (h_sh h !! k) as [s|]; [|done]. injection Hs as <-.
      destruct s; simpl; unfold checked; repeat case_match; by hap.
    - destruct (a_hs c !! i) as [[x sh]|]; [|done]. destruct x; simpl in Hs; try done; injection Hs as <-;
        unfold checked; repeat case_match; by hap.
    - repeat case_match; simplify_eq; unfold checked; repeat case_match; by hap.
    - repeat case_match; simplify_eq; unfold checked; repeat case_match; by hap.
    - repeat case_match; simplify_eq; by hap.
  Qed.
  Lemma panic_run x ls c : arun ls (arc_init x) = Some c -> no_panic ls -> happened is_drop_panic c = 0.
  Proof.
    by_run; [done|].
    intros ls l c c' Hr IH Hs Hp. rewrite <-IH; [|intros i Hi; apply (Hp i), elem_of_app; by left].
    assert (Hl : forall i, l <> LEx i true).
    { intros i ->. apply (Hp i), elem_of_app. right. by left. }
    clear -Hs Hl. destruct l as [i c0|i c0|i k f|i f|i y|i|]; simpl in Hs.
    - repeat case_match; simplify_eq; by hap.
    - destruct (a_hs c !! i) as [[[] [|? ?]]|]; try done. injection Hs as <-. destruct c0; by hap.
    - destruct (a_hs c !! i) as [h|]; [|done]. destruct (h_sh h !! k) as [s|]; [|done]. injection Hs as <-.
      destruct s; simpl; unfold checked; repeat case_match; by hap.
    - destruct f; [by destruct (Hl i)|].
      destruct (a_hs c !! i) as [[x sh]|]; [|done]. destruct x; simpl in Hs; try done; injection Hs as <-;
        unfold checked; repeat case_match; by hap.
    - repeat case_match; simplify_eq; unfold checked; repeat case_match; by hap.
    - repeat case_match; simplify_eq; unfold checked; repeat case_match; by hap.
    - repeat case_match; simplify_eq; by hap.
  Qed.
  Definition no_down (s : spc) : Prop := match s with SDown0 | SDown _ => False | _ => True end.
  Definition no_down_h (h : ahandle) : Prop := plain_x (h_ex h) = true /\ Forall no_down (h_sh h).
  Lemma down_run x ls c : arun ls (arc_init x) = Some c -> no_downgrade ls -> (forall i, LBeginX i CMakeMut ∉ ls) ->
    happened is_weak_made c = 0 /\ Forall no_down_h (a_hs c).
  Proof.
    by_run.
    { intros _ _. split; [done|]. by repeat constructor. }
    intros ls l c c' Hr IH Hs Hp Hm. destruct IH as [E Hall].
    { intros i Hi; apply (Hp i), elem_of_app; by left. } { intros i Hi; apply (Hm i), elem_of_app; by left. }
    rewrite <-E. clear E.
    assert (Hl : forall i, l <> LBeginS i CDowngrade).
    { intros i ->. apply (Hp i), elem_of_app. right. by left. }
    assert (Hl' : forall i, l <> LBeginX i CMakeMut).
    { intros i ->. apply (Hm i), elem_of_app. right. by left. }
    clear -Hs Hl Hl' Hall.
    assert (Hset : forall i h, no_down_h h -> Forall no_down_h (<[i := h]> (a_hs c))).
    { intros i h Hh. by apply Forall_insert. }
    assert (Hset0 : forall i x, plain_x x = true -> Forall no_down_h (<[i := AHandle x []]> (a_hs c))).
    { intros i x Hx. apply Hset. by repeat constructor. }
    destruct l as [i c0|i c0|i k f|i f|i y|i|]; simpl in Hs.
    - destruct (a_hs c !! i) as [[[] sh]|] eqn:Hi; try done. injection Hs as <-. hap. split; [done|].
      simpl. apply Hset. pose proof (Forall_lookup_1 _ _ _ _ Hall Hi) as [_ Hh]. split; [done|].
      apply Forall_app. split; [done|]. destruct c0; [by repeat constructor..|by destruct (Hl i)].
    - destruct (a_hs c !! i) as [[[] [|? ?]]|]; try done. injection Hs as <-.
      destruct c0; try (by destruct (Hl' i)); hap; (split; [done|]); simpl; by apply Hset0.
    - destruct (a_hs c !! i) as [h|] eqn:Hi; [|done]. destruct (h_sh h !! k) as [s|] eqn:Hk; [|done].
      injection Hs as <-. pose proof (Forall_lookup_1 _ _ _ _ Hall Hi) as [Hx Hh].
      pose proof (Forall_lookup_1 _ _ _ _ Hh Hk) as Hd.
      assert (Hdel : no_down_h (AHandle (h_ex h) (delete k (h_sh h)))) by (split; [done|by apply Forall_delete]).
      assert (Hins : forall s', no_down s' -> no_down_h (AHandle (h_ex h) (<[k := s']> (h_sh h)))).
      { intros s' Hs'. split; [done|]. by apply Forall_insert. }
      destruct s; simpl in Hd; try done; simpl; unfold checked; repeat case_match; hap; (split; [done|]); simpl;
        try done; try (by apply Hset); try (by apply Hset, Hins).
      apply Forall_app. split; [by apply Hset|]. by repeat constructor.
    - destruct (a_hs c !! i) as [[x sh]|] eqn:Hi; [|done]. pose proof (Forall_lookup_1 _ _ _ _ Hall Hi) as [Hx _].
      simpl in Hs. destruct x; simpl in Hx; try done; simpl in Hs; injection Hs as <-; unfold checked;
        repeat case_match; hap; (split; [done|]); simpl; try done; by apply Hset0.
    - destruct (a_hs c !! i) as [[[] [|? ?]]|] eqn:Hi; try done. injection Hs as <-. unfold checked.
      destruct (val_ok c); hap; (split; [done|]); simpl; [by apply Hset0|done].
    - destruct (a_hs c !! i) as [[[] ?]|] eqn:Hi; try done. injection Hs as <-. unfold checked.
      destruct (mem_ok c); by hap.
    - destruct (_ <? _); [|done]. injection Hs as <-. by hap.
  Qed.

  (** The value is the one written last. *)
  Lemma latest_snoc x ls l : latest x (ls ++ [l]) = match l with LEndMut _ y => y | _ => latest x ls end.
  Proof. revert x. induction ls as [|l' ls IH]; intros x; [by destruct l|]. destruct l'; simpl; apply IH. Qed.
  Lemma latest_run x ls c : arun ls (arc_init x) = Some c -> plain_arc ls -> a_val c = latest x ls.
  Proof.
    by_run; [done|].
    intros ls l c c' Hr IH Hs [Hp Hn]. rewrite app_length in Hn. simpl in Hn.
    assert (plain_arc ls) as Hpl.
    { split; [|clear -Hn; lia]. intros i Hi. apply (Hp i), elem_of_app. by left. }
    specialize (IH Hpl). destruct (plain_reached _ _ _ Hr Hpl) as (Hre&Hlo&_). rewrite latest_snoc.
    destruct l as [i c0|i c0|i k f|i f|i y|i|]; simpl in Hs.
    - repeat case_match; simplify_eq; done.
    - repeat case_match; simplify_eq; done.
    - destruct (a_hs c !! i) as [h|]; [|done]. destruct (h_sh h !! k) as [s|]; [|done]. injection Hs as <-.
      destruct s; simpl; unfold checked; repeat case_match; done.
    - destruct (a_hs c !! i) as [[z sh]|]; [|done]. destruct z; simpl in Hs; try done; injection Hs as <-;
        unfold checked; repeat case_match; done.
    - destruct (a_hs c !! i) as [[[] [|? ?]]|] eqn:Hi; try done. injection Hs as <-.
      destruct (p_C58_exclusive PR T x ls c i _ Hre Hi eq_refl) as (_&_&_&Hd&Hf).
      unfold checked, val_ok. by rewrite Hd, Hf.
    - repeat case_match; simplify_eq; unfold checked; repeat case_match; done.
    - repeat case_match; simplify_eq; done.
  Qed.
  Lemma out_run x ls c : arun ls (arc_init x) = Some c -> plain_arc ls -> happened is_out c = happened is_take c.
  Proof.
    by_run; [done|].
    intros ls l c c' Hr IH Hs [Hp Hn]. rewrite app_length in Hn. simpl in Hn.
    assert (plain_arc ls) as Hpl.
    { split; [|clear -Hn; lia]. intros i Hi. apply (Hp i), elem_of_app. by left. }
    specialize (IH Hpl). destruct (plain_run _ _ _ Hr Hpl) as (_&_&Hall).
    specialize (Hall (llen ls + 1) (N.le_refl _)).
    destruct l as [i c0|i c0|i k f|i f|i y|i|]; simpl in Hs.
    - repeat case_match; simplify_eq; by hap.
    - repeat case_match; simplify_eq; by hap.
    - destruct (a_hs c !! i) as [h|]; [|done]. destruct (h_sh h !! k) as [s|]; [|done]. injection Hs as <-.
      destruct s; simpl; unfold checked; repeat case_match; by hap.
    - destruct (a_hs c !! i) as [[z sh]|] eqn:Hi; [|done].
      pose proof (Forall_lookup_1 _ _ _ _ Hall Hi) as [Hx _]. simpl in *.
      destruct z; simpl in Hx; try done; simpl in Hs; injection Hs as <-;
        unfold checked; repeat case_match; hap; by rewrite IH.
    - repeat case_match; simplify_eq; unfold checked; repeat case_match; by hap.
    - repeat case_match; simplify_eq; unfold checked; repeat case_match; by hap.
    - repeat case_match; simplify_eq; by hap.
  Qed.
End calm_arc.

(** * C80 *)

(** Any interleaving of any number of threads that clone, read, downgrade, drop, unwrap, forget and get
    mutable access: no access to memory that is freed or to a value that is gone, at most one
    destruction and at most one release, and every read and [try_unwrap] sees the value written last. *)
Lemma p_C80_safe : forall (PR : Profile) (T : Type) (x : T) ls c,
  plain_arc ls -> arun ls (arc_init x) = Some c ->
  happened is_bad c = 0 /\ happened is_overflow c = 0 /\
  happened is_destroy c + happened is_out c <= 1 /\ happened is_free c <= 1 /\
  (forall i k c' y, astep (LSh i k true) c = Some c' -> a_log c' = a_log c ++ [ARead y] -> y = latest x ls) /\
  (forall i h k, a_hs c !! i = Some h -> h_sh h !! k = Some SRead ->
     exists c', astep (LSh i k true) c = Some c' /\ a_log c' = a_log c ++ [ARead (latest x ls)]) /\
  (forall i f c' y, astep (LEx i f) c = Some c' -> a_log c' = a_log c ++ [ATake y] -> y = latest x ls).
Proof.
  intros PR T x ls c Hp Hr. destruct (plain_reached _ _ _ Hr Hp) as (Hre&Hlo&_).
  destruct (p_C55_safe_partial PR T x ls c Hre Hlo) as (H1&H2&H3).
  pose proof (latest_run _ _ _ Hr Hp) as Hv.
  destruct (reached_inv x ls c Hre Hlo) as [(_&Hov&_) _].
  assert (Hinj : forall (l : list (aevent_ T)) a b, l ++ [a] = l ++ [b] -> a = b)
    by (intros l a b E; by apply app_inj_tail in E as [_ ?]).
  assert (Hself : forall (l : list (aevent_ T)) a, l = l ++ [a] -> False).
  { intros l a E. apply (f_equal length) in E. rewrite app_length in E. simpl in E. lia. }
  split; [done|]. split; [done|]. split; [done|]. split; [done|]. split; [|split].
  - intros i k c' y Hs Hlog. simpl in Hs. destruct (a_hs c !! i) as [h|]; [|done].
    destruct (h_sh h !! k) as [s|]; [|done]. injection Hs as <-.
    destruct s; simpl in Hlog; unfold checked in Hlog; repeat case_match; simpl in Hlog;
      first [by apply Hself in Hlog | apply Hinj in Hlog]; try done. injection Hlog as <-. done.
  - intros i h k Hi Hk. simpl. rewrite Hi, Hk. eexists. split; [reflexivity|]. simpl.
    destruct (shared_PA _ _ _ _ _ _ _ Hre Hlo Hi Hk) as (Hd&Hf&_). unfold checked, val_ok. rewrite Hd, Hf. simpl.
    by rewrite Hv.
  - intros i f c' y Hs Hlog. simpl in Hs. destruct (a_hs c !! i) as [h|]; [|done].
    destruct (h_ex h); simpl in Hs; try done; injection Hs as <-; unfold checked in Hlog;
      repeat case_match; simpl in Hlog;
      first [by apply Hself in Hlog | (rewrite <-?app_assoc in Hlog; simpl in Hlog; apply app_inv_head in Hlog)]; try done.
    injection Hlog as <-. done.
Qed.
Lemma x_C80_safe_ex : forall (PR : Profile), exists c,
  plain_arc s_two /\ arun s_two (arc_init 5) = Some c /\
  a_log c = [ACloneOk; ARead 5; ARead 5; ADestroy; AFree].
Proof.
  intros PR. eexists. split; [|split; [vm_compute; reflexivity|done]]. split; [|by vm_compute].
  intros i Hi. unfold s_two in Hi. vm_compute in Hi.
  repeat (apply elem_of_cons in Hi as [Hi|Hi]; [done|]). by apply elem_of_nil in Hi.
Qed.

(** * C81 *)

(** If no [Weak] is made, nothing is forgotten and no destructor panics, then once all handles are gone
    the value was destroyed or handed out exactly once and the memory was released exactly once. *)
Lemma p_C81_released : forall (PR : Profile) (T : Type) (x : T) ls c,
  plain_arc ls -> no_forget ls -> no_downgrade ls -> no_panic ls ->
  arun ls (arc_init x) = Some c -> all_gone c ->
  happened is_destroy c + happened is_take c = 1 /\ happened is_free c = 1 /\ a_freed c = true.
Proof.
  intros PR T x ls c Hp Hf Hd Hn Hr Hg. destruct (plain_reached _ _ _ Hr Hp) as (Hre&Hlo&Hcp).
  pose proof (forget_run _ _ _ Hr Hf) as E1. pose proof (panic_run _ _ _ Hr Hn) as E2.
  destruct (down_run _ _ _ Hr Hd (proj1 Hp)) as [E3 _].
  destruct (p_C56_last_handle_partial PR T x ls c Hre Hlo Hg E1 Hcp) as [H1 H2].
  split; [by rewrite <-(out_run _ _ _ Hr Hp)|].
  split; [by apply H2|by apply (p_C57_freed_partial PR T x ls c Hre Hlo Hg E1 Hcp E2)].
Qed.
Lemma not_in_ex {A} (l : list A) (P : A -> bool) a : P a = true -> forallb (fun b => negb (P b)) l = true -> a ∉ l.
Proof.
  intros Ha Hl Hin. rewrite forallb_forall in Hl. specialize (Hl a). rewrite Ha in Hl.
  specialize (Hl (proj1 (elem_of_list_In _ _) Hin)). done.
Qed.
Lemma x_C81_released_ex : forall (PR : Profile), exists c,
  plain_arc s_two /\ no_forget s_two /\ no_downgrade s_two /\ no_panic s_two /\
  arun s_two (arc_init 5) = Some c /\ all_gone c.
Proof.
  intros PR. eexists.
  split. { split; [|by vm_compute]. intros i. by eapply (not_in_ex _ (fun l => match l with LBeginX _ CMakeMut => true | _ => false end)). }
  split. { intros i. by eapply (not_in_ex _ (fun l => match l with LBeginX _ CForget => true | _ => false end)). }
  split. { intros i. by eapply (not_in_ex _ (fun l => match l with LBeginS _ CDowngrade => true | _ => false end)). }
  split. { intros i. by eapply (not_in_ex _ (fun l => match l with LEx _ true => true | _ => false end)). }
  split; [vm_compute; reflexivity|]. repeat constructor.
Qed.

(** * C82 *)

(** Counts: if nothing is forgotten, [strong_count] is the number of handles, counting those whose
    drop or unwrapping has not taken effect and clones that are counted but not returned yet; when no
    call is in progress it is the number of handles.  [weak_count] is zero if no [Weak] was made. *)
Lemma p_C82_counts : forall (PR : Profile) (T : Type) (x : T) ls c i c',
  plain_arc ls -> no_forget ls -> arun ls (arc_init x) = Some c -> astep (LCounts i) c = Some c' ->
  exists n k, a_log c' = a_log c ++ [AStrong n; AWeakCount k] /\ n = owners (a_hs c) /\
    (quiet_arc (a_hs c) -> n = cnt is_held (a_hs c)) /\ (no_downgrade ls -> k = 0).
Proof.
  intros PR T x ls c i c' Hp Hf Hr Hs. destruct (plain_reached _ _ _ Hr Hp) as (Hre&Hlo&Hcp).
  pose proof (forget_run _ _ _ Hr Hf) as E1.
  destruct (p_C60_count_partial PR T x ls c Hre Hlo) as [H1 _].
  destruct (H1 i c' Hs) as [w Hw]. rewrite E1, Hcp, !N.add_0_r in Hw.
  destruct (p_C62_weak_count_partial PR T x ls c Hre Hlo i c' Hs) as [n Hn].
  exists (owners (a_hs c)), w. split; [done|]. split; [done|]. split.
  - intros Hq. clear -Hq. unfold owners. induction (a_hs c) as [|h hs IH]; [done|].
    apply Forall_cons in Hq as [Hh Hq]. simpl. rewrite IH by done. by destruct Hh as [->| ->].
  - intros Hd. destruct (down_run _ _ _ Hr Hd (proj1 Hp)) as [E3 _]. rewrite Hw in Hn.
    apply app_inv_head in Hn. injection Hn as _ ->. done.
Qed.
Lemma x_C82_counts_ex : forall (PR : Profile), exists c c',
  plain_arc (s_clone 0 ++ s_clone 1) /\ no_forget (s_clone 0 ++ s_clone 1) /\
  arun (s_clone 0 ++ s_clone 1) (arc_init 5) = Some c /\ quiet_arc (a_hs c) /\
  astep (LCounts 1) c = Some c' /\ a_log c' = a_log c ++ [AStrong 3; AWeakCount 0].
Proof.
  intros PR. eexists _, _.
  split. { split; [|by vm_compute]. intros i. by eapply (not_in_ex _ (fun l => match l with LBeginX _ CMakeMut => true | _ => false end)). }
  split. { intros i. by eapply (not_in_ex _ (fun l => match l with LBeginX _ CForget => true | _ => false end)). }
  split; [vm_compute; reflexivity|]. split; [repeat constructor; by left|]. split; [vm_compute; reflexivity|done].
Qed.

(** * C83 *)

(** [try_unwrap]: the only handle gets the value written last; any other call gives the handle back and
    changes nothing.  [get_mut] returns a reference exactly for the only handle when no [Weak] was
    ever made. *)
Lemma p_C83_unwrap : forall (PR : Profile) (T : Type) (x : T) ls c i h f f',
  plain_arc ls -> no_forget ls -> arun ls (arc_init x) = Some c -> a_hs c !! i = Some h -> h_ex h = XCas ->
  (alone i c /\ exists c', arun [LEx i f; LEx i f'] c = Some c' /\ a_log c' = a_log c ++ [ATake (latest x ls)]) \/
  (~ alone i c /\ astep (LEx i f) c = Some (say AUnwrapErr (goto i XHeld c))).
Proof.
  intros PR T x ls c i h f f' Hp Hf Hr Hi Hx. destruct (plain_reached _ _ _ Hr Hp) as (Hre&Hlo&Hcp).
  pose proof (forget_run _ _ _ Hr Hf) as E1.
  destruct (p_C61_unwrap_partial PR T x ls c Hre Hlo) as (_&_&H). destruct (H i h f f' Hi Hx) as [Ha Hb].
  rewrite <-(latest_run _ _ _ Hr Hp).
  assert (Hdec : alone i c \/ ~ alone i c).
  { assert (Hd : (forall j, (j < length (a_hs c))%nat -> j <> i -> a_hs c !! j = Some gone) \/
      exists j h', j <> i /\ a_hs c !! j = Some h' /\ h' <> gone).
    { clear. induction (a_hs c) as [|h' hs IH] using rev_ind; [left; simpl; lia|].
      destruct IH as [IH|(j&h2&H1&H2&H3)].
      - destruct (decide (length hs = i)) as [<-|Hne].
        + left. intros j Hj Hne. rewrite app_length in Hj. simpl in Hj. rewrite lookup_app_l by lia. apply IH; lia.
        + assert (h' = gone \/ h' <> gone) as [->|Hg].
          { destruct h' as [[] [|? ?]]; first [by left | by right]. }
          * left. intros j Hj Hj'. rewrite app_length in Hj. simpl in Hj.
            destruct (decide (j = length hs)) as [->|Hn]; [by rewrite list_lookup_middle|].
            rewrite lookup_app_l by lia. apply IH; lia.
          * right. exists (length hs), h'. split; [done|]. split; [by rewrite list_lookup_middle|done].
      - right. exists j, h2. split; [done|]. split; [|done]. by apply lookup_app_l_Some. }
    destruct Hd as [Hd|(j&h'&H1&H2&H3)].
    - left. intros j h' Hne Hj. pose proof (lookup_lt_Some _ _ _ Hj) as Hlt. rewrite (Hd j Hlt Hne) in Hj. by injection Hj.
    - right. intros Hal. by apply H3, (Hal j). }
  destruct Hdec as [Hal|Hal].
  - left. split; [done|]. by apply Ha.
  - right. split; [done|]. apply Hb. by intros [? _].
Qed.
Lemma x_C83_unwrap_ex : forall (PR : Profile), exists c,
  plain_arc (s_clone 0 ++ [LBeginX 0 CDrop; LEx 0 false; LBeginX 1 CUnwrap]) /\
  no_forget (s_clone 0 ++ [LBeginX 0 CDrop; LEx 0 false; LBeginX 1 CUnwrap]) /\
  arun (s_clone 0 ++ [LBeginX 0 CDrop; LEx 0 false; LBeginX 1 CUnwrap]) (arc_init 5) = Some c /\
  a_hs c !! 1%nat = Some (AHandle XCas []) /\ alone 1 c.
Proof.
  intros PR. eexists.
  split. { split; [|by vm_compute]. intros i. by eapply (not_in_ex _ (fun l => match l with LBeginX _ CMakeMut => true | _ => false end)). }
  split. { intros i. by eapply (not_in_ex _ (fun l => match l with LBeginX _ CForget => true | _ => false end)). }
  split; [vm_compute; reflexivity|]. split; [done|]. intros [|[|j]] h' Hne Hj; [by injection Hj|done|done].
Qed.
Lemma p_C83_get_mut : forall (PR : Profile) (T : Type) (x : T) ls c i (f1 f2 f3 : bool),
  plain_arc ls -> no_forget ls -> arun ls (arc_init x) = Some c -> quiet_arc (a_hs c) ->
  a_hs c !! i = Some held ->
  exists c', arun (LBeginX i CGetMut :: (if a_weak c =? 0 then [LEx i f1; LEx i f2; LEx i f3] else [LEx i f1])) c
      = Some c' /\
    a_log c' = a_log c ++ [AGetMut ((cnt is_held (a_hs c) =? 1) && (happened is_weak_made c =? 0))] /\
    a_hs c' !! i = Some (AHandle (if (cnt is_held (a_hs c) =? 1) && (happened is_weak_made c =? 0)
                                  then XMut else XHeld) []) /\
    (forall j, j <> i -> a_hs c' !! j = a_hs c !! j) /\ a_val c' = latest x ls.
Proof.
  intros PR T x ls c i f1 f2 f3 Hp Hf Hr Hq Hi. destruct (plain_reached _ _ _ Hr Hp) as (Hre&Hlo&Hcp).
  pose proof (forget_run _ _ _ Hr Hf) as E1.
  assert (HA : PA c) by (by eapply (reached_PA _ _ _ _ _ i)).
  destruct HA as (_&_&Hst&_&_&_&Hw&Hz&_).
  assert (Hs : a_strong c = cnt is_held (a_hs c)).
  { rewrite Hst. assert (happened is_leak c = 0) as ->.
    { rewrite leaks, E1, Hcp. done. }
    rewrite N.add_0_r. clear -Hq. unfold owners. induction (a_hs c) as [|h hs IH]; [done|].
    apply Forall_cons in Hq as [Hh Hq]. simpl. rewrite IH by done. by destruct Hh as [->| ->]. }
  assert (Hlk : sumN lk (a_hs c) = 0).
  { clear -Hq. induction (a_hs c) as [|h hs IH]; [done|].
    apply Forall_cons in Hq as [Hh Hq]. simpl. rewrite IH by done. by destruct Hh as [->| ->]. }
  rewrite Hlk in Hw. simpl in Hw.
  assert (Hne : a_weak c <> usize_max).
  { destruct (reached_inv x ls c Hre Hlo) as [_ Hsz]. unfold asize in Hsz. destruct Hre as [Hl _]. clear -Hw Hsz Hl. lia. }
  destruct (p_C58_get_mut PR T x ls c i f1 f2 f3 Hre Hlo Hi Hne) as (ls'&->&Hrun&_).
  rewrite <-Hs, <-Hw. eexists. split; [exact Hrun|]. simpl. split; [done|].
  pose proof (lookup_lt_Some _ _ _ Hi) as Hlt.
  split; [by rewrite list_lookup_insert|]. split; [|by apply latest_run].
  intros j Hj. by rewrite list_lookup_insert_ne.
Qed.
Lemma x_C83_get_mut_ex : forall (PR : Profile), exists c,
  plain_arc (s_clone 0 ++ [LBeginX 0 CDrop; LEx 0 false]) /\ no_forget (s_clone 0 ++ [LBeginX 0 CDrop; LEx 0 false]) /\
  arun (s_clone 0 ++ [LBeginX 0 CDrop; LEx 0 false]) (arc_init 5) = Some c /\ quiet_arc (a_hs c) /\
  a_hs c !! 1%nat = Some held /\ cnt is_held (a_hs c) = 1.
Proof.
  intros PR. eexists.
  split. { split; [|by vm_compute]. intros i. by eapply (not_in_ex _ (fun l => match l with LBeginX _ CMakeMut => true | _ => false end)). }
  split. { intros i. by eapply (not_in_ex _ (fun l => match l with LBeginX _ CForget => true | _ => false end)). }
  split; [vm_compute; reflexivity|].
  split; [|done]. constructor; [by right|]. constructor; [by left|constructor].
Qed.
