(** Proofs of the statements on scopes and markers. *)
From Verif Require Export SpecScope.
From Coq Require Import ZifyBool ZifyNat ZifyN.

Lemma returns_nest ref p cur a : returns p -> exists l a', nest ref p cur a = (SRet, l, a').
Proof.
  revert cur a. induction p as [| |k IH|[s|] body IHb k IHk|body IHb k IHk]; simpl; intros cur a H; try done.
  - eauto.
  - destruct (IH cur a H) as (l&a'&->). eauto.
  - destruct H as (_&H1&H2). destruct (IHb (ref s a) (a + 1) H1) as (l&a1&->).
    destruct (IHk cur a1 H2) as (l'&a2&->). eauto.
  - destruct (nest ref body cur a) as [[o l] a1]. destruct (IHk cur a1 H) as (l'&a2&->). eauto.
Qed.

(** Whatever the scopes and however deep the nesting: if no panic passes through a [spawn], the scopes
    seen are those of the specification, where [spawn] makes the first two words of the scope value the
    reference, and at the end the scope current before is current again. *)
Lemma p_C69_nest_partial : forall p cur a seen o l a',
  calm p -> nest word_ref p cur a = (o, l, a') ->
  sexec p (SEnv cur a seen) = (o, SEnv cur a' (seen ++ l)).
Proof.
  induction p as [| |k IH|[s|] body IHb k IHk|body IHb k IHk]; simpl; intros cur a seen o l a' Hc H.
  - injection H as <- <- <-. by rewrite app_nil_r.
  - injection H as <- <- <-. by rewrite app_nil_r.
  - destruct (nest word_ref k cur a) as [[o1 l1] a1] eqn:E. injection H as <- <- <-.
    rewrite (IH _ _ _ _ _ _ Hc E). by rewrite <- app_assoc.
  - destruct Hc as (Hs&Hb&Hr&Hk). unfold transmute_copy. unfold word_ref in *. unfold sv_size in Hs.
    destruct (sv_words s) as [|w0 [|w1 ws]]; simpl in Hs; [lia|lia|].
    destruct (returns_nest word_ref body (Fat w0 w1) (a + 1) Hr) as (lb&a1&Eb).
    unfold word_ref in Eb. rewrite Eb in H. unfold set_cur. simpl.
    rewrite (IHb _ _ seen _ _ _ Hb Eb). simpl.
    destruct (nest _ k cur a1) as [[o' l'] a2] eqn:E. injection H as <- <- <-.
    rewrite (IHk _ _ _ _ _ _ Hk E). by rewrite app_assoc.
  - injection H as <- <- <-. by rewrite app_nil_r.
  - destruct Hc as [Hb Hk]. destruct (nest word_ref body cur a) as [[o1 l1] a1] eqn:Eb.
    destruct (nest word_ref k cur a1) as [[o2 l2] a2] eqn:Ek. injection H as <- <- <-.
    rewrite (IHb _ _ _ _ _ _ Hb Eb). rewrite (IHk _ _ _ _ _ _ Hk Ek). by rewrite app_assoc.
Qed.

Lemma nest_self p cur a : self_scoped p a -> nest word_ref p cur a = nest self_ref p cur a.
Proof.
  revert cur a. induction p as [| |k IH|[s|] body IHb k IHk|body IHb k IHk]; simpl; intros cur a H; try done.
  - by rewrite IH.
  - destruct H as (E&H1&H2). rewrite E, IHb by done. specialize (H2 (self_ref s a)).
    destruct (nest self_ref body (self_ref s a) (a + 1)) as [[[] l] a1]; [|done]. by rewrite IHk.
  - destruct H as (H1&H2). rewrite IHb by done. specialize (H2 cur).
    destruct (nest self_ref body cur a) as [[o l] a1]. by rewrite IHk.
Qed.
(** So the property holds of code whose scope values start with a reference to themselves. *)
Lemma p_C69_nest_self_partial : forall p cur a seen o l a',
  calm p -> self_scoped p a -> nest self_ref p cur a = (o, l, a') ->
  sexec p (SEnv cur a seen) = (o, SEnv cur a' (seen ++ l)).
Proof. intros. apply p_C69_nest_partial; [done|]. by rewrite nest_self. Qed.

Definition p_scopes : prog :=
  PLook (PSpawn (Some (ScopeV [0; 77; 5] 77))
    (PLook (PSpawn (Some (ScopeV [1; 88] 88)) (PLook PDone) (PLook PDone)))
    (PCatch (PLook PPanic) (PLook PDone))).
Lemma x_C69_nest_ex :
  calm p_scopes /\ self_scoped p_scopes 0 /\
  nest self_ref p_scopes (Fat 9 9) 0 =
    (SRet, [Fat 9 9; Fat 0 77; Fat 1 88; Fat 0 77; Fat 9 9; Fat 9 9], 2).
Proof.
  split; [|split; [|done]]; simpl; repeat split; try done.
Qed.

(** Whatever its body does, panics it catches itself included: a [spawn] that returns leaves the scope
    that was current before it as the current one. *)
Lemma p_C69_restore_partial : forall s body cur a seen e,
  sexec (PSpawn s body PDone) (SEnv cur a seen) = (SRet, e) -> se_cur e = cur.
Proof.
  intros s body cur a seen e H. simpl in H. destruct s as [s|]; [|done].
  destruct (transmute_copy s) as [f|]; [|done].
  destruct (sexec body _) as [[] e1]; [|done]. by injection H as <-.
Qed.
Lemma x_C69_restore_ex :
  let body := PCatch (PSpawn (Some (ScopeV [1; 88] 88)) PPanic PDone) (PLook PDone) in
  sexec (PSpawn (Some (ScopeV [0; 77; 5] 77)) body PDone) (SEnv (Fat 9 9) 0 []) =
    (SRet, SEnv (Fat 9 9) 2 [Fat 1 88]).
Proof. reflexivity. Qed.

(** A scope that does not start with a reference to itself is not the current scope inside its own
    [spawn]: the environment holds whatever the first two words of the value are. *)
Lemma p_C69_wrong_scope_refuted : forall s cur a w0 w1 ws,
  sv_words s = w0 :: w1 :: ws -> Fat w0 w1 <> self_ref s a ->
  exists seen, sexec (PSpawn (Some s) (PLook PDone) PDone) (SEnv cur a []) = (SRet, SEnv cur (a + 1) seen) /\
    seen = [Fat w0 w1] /\
    nest self_ref (PSpawn (Some s) (PLook PDone) PDone) cur a = (SRet, [self_ref s a], a + 1).
Proof.
  intros s cur a w0 w1 ws Hs Hne. exists [Fat w0 w1]. simpl. unfold transmute_copy. rewrite Hs. done.
Qed.
Lemma x_C69_wrong_scope_ex : exists s a w0 w1 ws,
  sv_words s = w0 :: w1 :: ws /\ Fat w0 w1 <> self_ref s a.
Proof. exists (ScopeV [3; 4; 5] 77), 0, 3, 4, [5]. done. Qed.

(** A scope smaller than a reference cannot be spawned at all. *)
Lemma p_C69_small_scope_refuted : forall s body k cur a,
  sv_size s < 16 -> fst (sexec (PSpawn (Some s) body k) (SEnv cur a [])) = SPanic.
Proof.
  intros s body k cur a H. simpl. unfold transmute_copy. unfold sv_size in H.
  destruct (sv_words s) as [|w0 [|w1 ws]]; [done|done|simpl in H; lia].
Qed.
Lemma x_C69_small_scope_ex : sv_size (ScopeV [] 77) < 16.
Proof. done. Qed.

(** When the body panics the scope that is gone stays the current one. *)
Lemma p_C69_panic_refuted : forall s cur a w0 w1 ws,
  sv_words s = w0 :: w1 :: ws -> Fat w0 w1 <> cur ->
  let p := PCatch (PSpawn (Some s) PPanic PDone) (PLook PDone) in
  sexec p (SEnv cur a []) = (SRet, SEnv (Fat w0 w1) (a + 1) [Fat w0 w1]) /\
  forall ref, nest ref p cur a = (SRet, [cur], a + 1).
Proof.
  intros s cur a w0 w1 ws Hs Hne p. subst p. simpl. unfold transmute_copy. rewrite Hs. done.
Qed.
Lemma x_C69_panic_ex : exists s cur w0 w1 ws, sv_words s = w0 :: w1 :: ws /\ Fat w0 w1 <> cur.
Proof. exists (ScopeV [3; 4; 5] 77), (Fat 9 9), 3, 4, [5]. done. Qed.

(** Equality of markers and of selectors is an equivalence, and equal ones feed the same to a hasher. *)
Lemma marker_eqb_eq a b : marker_eqb a b = true <-> marker_hash a = marker_hash b.
Proof. destruct a, b; simpl; split; intros H; try done; [f_equal; lia|injection H; lia]. Qed.
Lemma selector_eqb_eq a b : selector_eqb a b = true <->
  marker_hash (as_marker a) = marker_hash (as_marker b) /\ st_ptr (as_ty a) = st_ptr (as_ty b).
Proof. unfold selector_eqb. rewrite andb_true_iff, marker_eqb_eq, N.eqb_eq. done. Qed.

Lemma p_C70_marker_partial :
  (forall m, marker_eqb m m = true) /\
  (forall m n, marker_eqb m n = true -> marker_eqb n m = true) /\
  (forall m n o, marker_eqb m n = true -> marker_eqb n o = true -> marker_eqb m o = true) /\
  (forall m n, marker_eqb m n = true -> marker_hash m = marker_hash n) /\
  (forall tn : N -> N -> sstr,
     (* one address for the name of each type, and different ones for different types *)
     (forall t u s1 s2, st_ptr (tn t s1) = st_ptr (tn u s2) <-> t = u) ->
     (forall t u s1 s2, marker_eqb (marker_new tn t s1) (marker_new tn u s2) = true <-> t = u) /\
     (forall t s, marker_eqb MNone (marker_new tn t s) = false)).
Proof.
  split_and!.
  - intros m. by apply marker_eqb_eq.
  - intros m n H. apply marker_eqb_eq. apply marker_eqb_eq in H. done.
  - intros m n o H1 H2. apply marker_eqb_eq. apply marker_eqb_eq in H1, H2. congruence.
  - intros m n H. by apply marker_eqb_eq.
  - intros tn Htn. split; [|done]. intros t u s1 s2. simpl. rewrite N.eqb_eq. apply Htn.
Qed.

Lemma p_C70_selector_partial :
  (forall m, selector_eqb m m = true) /\
  (forall m n, selector_eqb m n = true -> selector_eqb n m = true) /\
  (forall m n o, selector_eqb m n = true -> selector_eqb n o = true -> selector_eqb m o = true) /\
  (forall m n, selector_eqb m n = true -> selector_hash m = selector_hash n) /\
  (forall m n, marker_eqb (as_marker m) (as_marker n) = false -> selector_eqb m n = false) /\
  (forall tn : N -> N -> sstr,
     (forall t u s1 s2, st_ptr (tn t s1) = st_ptr (tn u s2) <-> t = u) ->
     (forall t u s1 s2, selector_eqb (selector_new tn t s1) (selector_new tn u s2) = true <-> t = u) /\
     (forall m n t u s1 s2, selector_eqb (selector_with_marker tn m t s1) (selector_with_marker tn n u s2) = true <->
        marker_eqb m n = true /\ t = u)).
Proof.
  split_and!.
  - intros m. by apply selector_eqb_eq.
  - intros m n H. apply selector_eqb_eq. apply selector_eqb_eq in H as [-> ->]. done.
  - intros m n o H1 H2. apply selector_eqb_eq. apply selector_eqb_eq in H1 as [-> ->], H2 as [-> ->]. done.
  - intros m n H. apply selector_eqb_eq in H as [E1 E2]. unfold selector_hash. by rewrite E1, E2.
  - intros m n H. unfold selector_eqb. by rewrite H.
  - intros tn Htn. split.
    + intros t u s1 s2. unfold selector_eqb. simpl. rewrite N.eqb_eq. apply Htn.
    + intros m n t u s1 s2. unfold selector_eqb. simpl. rewrite andb_true_iff, N.eqb_eq, Htn. done.
Qed.

Lemma x_C70_names_ex : exists tn : N -> N -> sstr,
  (forall t u s1 s2, st_ptr (tn t s1) = st_ptr (tn u s2) <-> t = u) /\
  (forall t s1 s2, st_text (tn t s1) = st_text (tn t s2)).
Proof. exists (fun t _ => SStr t [t]). done. Qed.

(** The language leaves the addresses open: the name of one type can be stored twice, and two types can
    have the same name.  Then markers of one type differ and markers of different types are equal. *)
Lemma p_C70_names_refuted :
  (exists tn : N -> N -> sstr, (forall t s1 s2, st_text (tn t s1) = st_text (tn t s2)) /\
     marker_eqb (marker_new tn 1 0) (marker_new tn 1 1) = false) /\
  (exists tn : N -> N -> sstr, (forall t s1 s2, tn t s1 = tn t s2) /\
     marker_eqb (marker_new tn 1 0) (marker_new tn 2 0) = true).
Proof.
  split.
  - exists (fun t s => SStr s [t]). done.
  - exists (fun t s => SStr 0 [65]). done.
Qed.
