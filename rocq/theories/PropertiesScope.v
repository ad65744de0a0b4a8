(** Properties C69-C70: scopes and allocation markers. *)
From Verif Require Import ScopeFacts.

(** Whatever the scopes and however deep the nesting: if no panic passes through a [spawn], the scopes
    seen are those of the specification, where [spawn] makes the first two words of the scope value the
    reference, and at the end the scope current before is current again. *)
Theorem C69_nest_partial : forall p cur a seen o l a',
  calm p -> nest word_ref p cur a = (o, l, a') ->
  sexec p (SEnv cur a seen) = (o, SEnv cur a' (seen ++ l)).
Proof. exact p_C69_nest_partial. Qed.
Print Assumptions C69_nest_partial.

(** So the property holds of code whose scope values start with a reference to themselves. *)
Theorem C69_nest_self_partial : forall p cur a seen o l a',
  calm p -> self_scoped p a -> nest self_ref p cur a = (o, l, a') ->
  sexec p (SEnv cur a seen) = (o, SEnv cur a' (seen ++ l)).
Proof. exact p_C69_nest_self_partial. Qed.
Print Assumptions C69_nest_self_partial.

Example C69_nest_ex :
  calm p_scopes /\ self_scoped p_scopes 0 /\
  nest self_ref p_scopes (Fat 9 9) 0 =
    (SRet, [Fat 9 9; Fat 0 77; Fat 1 88; Fat 0 77; Fat 9 9; Fat 9 9], 2).
Proof. exact x_C69_nest_ex. Qed.

(** Whatever its body does, panics it catches itself included: a [spawn] that returns leaves the scope
    that was current before it as the current one. *)
Theorem C69_restore_partial : forall s body cur a seen e,
  sexec (PSpawn s body PDone) (SEnv cur a seen) = (SRet, e) -> se_cur e = cur.
Proof. exact p_C69_restore_partial. Qed.
Print Assumptions C69_restore_partial.

Example C69_restore_ex :
  let body := PCatch (PSpawn (Some (ScopeV [1; 88] 88)) PPanic PDone) (PLook PDone) in
  sexec (PSpawn (Some (ScopeV [0; 77; 5] 77)) body PDone) (SEnv (Fat 9 9) 0 []) =
    (SRet, SEnv (Fat 9 9) 2 [Fat 1 88]).
Proof. exact x_C69_restore_ex. Qed.

(** A scope that does not start with a reference to itself is not the current scope inside its own
    [spawn]: the environment holds whatever the first two words of the value are. *)
Theorem C69_wrong_scope_refuted : forall s cur a w0 w1 ws,
  sv_words s = w0 :: w1 :: ws -> Fat w0 w1 <> self_ref s a ->
  exists seen, sexec (PSpawn (Some s) (PLook PDone) PDone) (SEnv cur a []) = (SRet, SEnv cur (a + 1) seen) /\
    seen = [Fat w0 w1] /\
    nest self_ref (PSpawn (Some s) (PLook PDone) PDone) cur a = (SRet, [self_ref s a], a + 1).
Proof. exact p_C69_wrong_scope_refuted. Qed.
Print Assumptions C69_wrong_scope_refuted.

Example C69_wrong_scope_ex : exists s a w0 w1 ws,
  sv_words s = w0 :: w1 :: ws /\ Fat w0 w1 <> self_ref s a.
Proof. exact x_C69_wrong_scope_ex. Qed.

(** A scope smaller than a reference cannot be spawned at all. *)
Theorem C69_small_scope_refuted : forall s body k cur a,
  sv_size s < 16 -> fst (sexec (PSpawn (Some s) body k) (SEnv cur a [])) = SPanic.
Proof. exact p_C69_small_scope_refuted. Qed.
Print Assumptions C69_small_scope_refuted.

Example C69_small_scope_ex : sv_size (ScopeV [] 77) < 16.
Proof. exact x_C69_small_scope_ex. Qed.

(** When the body panics the scope that is gone stays the current one. *)
Theorem C69_panic_refuted : forall s cur a w0 w1 ws,
  sv_words s = w0 :: w1 :: ws -> Fat w0 w1 <> cur ->
  let p := PCatch (PSpawn (Some s) PPanic PDone) (PLook PDone) in
  sexec p (SEnv cur a []) = (SRet, SEnv (Fat w0 w1) (a + 1) [Fat w0 w1]) /\
  forall ref, nest ref p cur a = (SRet, [cur], a + 1).
Proof. exact p_C69_panic_refuted. Qed.
Print Assumptions C69_panic_refuted.

Example C69_panic_ex : exists s cur w0 w1 ws, sv_words s = w0 :: w1 :: ws /\ Fat w0 w1 <> cur.
Proof. exact x_C69_panic_ex. Qed.

Theorem C70_marker_partial :
  (forall m, marker_eqb m m = true) /\
  (forall m n, marker_eqb m n = true -> marker_eqb n m = true) /\
  (forall m n o, marker_eqb m n = true -> marker_eqb n o = true -> marker_eqb m o = true) /\
  (forall m n, marker_eqb m n = true -> marker_hash m = marker_hash n) /\
  (forall tn : N -> N -> sstr,
     (* one address for the name of each type, and different ones for different types *)
     (forall t u s1 s2, st_ptr (tn t s1) = st_ptr (tn u s2) <-> t = u) ->
     (forall t u s1 s2, marker_eqb (marker_new tn t s1) (marker_new tn u s2) = true <-> t = u) /\
     (forall t s, marker_eqb MNone (marker_new tn t s) = false)).
Proof. exact p_C70_marker_partial. Qed.
Print Assumptions C70_marker_partial.

Theorem C70_selector_partial :
  (forall m, selector_eqb m m = true) /\
  (forall m n, selector_eqb m n = true -> selector_eqb n m = true) /\
  (forall m n o, selector_eqb m n = true -> selector_eqb n o = true -> selector_eqb m o = true) /\
  (forall m n, selector_eqb m n = true -> selector_hash m = selector_hash n) /\
  (forall m n, marker_eqb (as_marker m) (as_marker n) = false -> selector_eqb m n = false) /\
  (forall tn : N -> N -> sstr,
     (forall t u s1 s2, st_ptr (tn t s1) = st_ptr (tn u s2) <-> t = u) ->
     (forall t u s1 s2, selector_eqb (selector_new tn t s1) (selector_new tn u s2) = true <-> t = u) /\
     (forall m n t u s1 s2, selector_eqb (selector_with_marker tn m t s1) (selector_with_marker tn n u s2) = true <->
        marker_eqb m n = true /\ t = u)).
Proof. exact p_C70_selector_partial. Qed.
Print Assumptions C70_selector_partial.

Example C70_names_ex : exists tn : N -> N -> sstr,
  (forall t u s1 s2, st_ptr (tn t s1) = st_ptr (tn u s2) <-> t = u) /\
  (forall t s1 s2, st_text (tn t s1) = st_text (tn t s2)).
Proof. exact x_C70_names_ex. Qed.

(** The language leaves the addresses open: the name of one type can be stored twice, and two types can
    have the same name.  Then markers of one type differ and markers of different types are equal. *)
Theorem C70_names_refuted :
  (exists tn : N -> N -> sstr, (forall t s1 s2, st_text (tn t s1) = st_text (tn t s2)) /\
     marker_eqb (marker_new tn 1 0) (marker_new tn 1 1) = false) /\
  (exists tn : N -> N -> sstr, (forall t s1 s2, tn t s1 = tn t s2) /\
     marker_eqb (marker_new tn 1 0) (marker_new tn 2 0) = true).
Proof. exact p_C70_names_refuted. Qed.
Print Assumptions C70_names_refuted.
