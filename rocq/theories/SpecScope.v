(** What nesting of scopes should mean: the current scope is passed down, not stored. *)
From Verif Require Export ScopeModel.

(** [nest ref p cur a] = outcome, scopes seen and next address, when [cur] is the current scope around
    [p], scopes are placed at [a], [a+1], ..., and [ref s a] is the reference to scope [s] living at [a]. *)
Fixpoint nest (ref : scopev -> N -> fat) (p : prog) (cur : fat) (a : N) : sres * list fat * N :=
  match p with
  | PDone => (SRet, [], a)
  | PPanic => (SPanic, [], a)
  | PLook k => let '(o, l, a') := nest ref k cur a in (o, cur :: l, a')
  | PSpawn None _ _ => (SPanic, [], a)
  | PSpawn (Some s) body k =>
      let '(o, l, a1) := nest ref body (ref s a) (a + 1) in
      match o with
      | SPanic => (SPanic, l, a1)
      | SRet => let '(o', l', a2) := nest ref k cur a1 in (o', l ++ l', a2)
      end
  | PCatch body k =>
      let '(_, l, a1) := nest ref body cur a in
      let '(o, l', a2) := nest ref k cur a1 in (o, l ++ l', a2)
  end.

(** The reference a scope should be found by. *)
Definition self_ref (s : scopev) (a : N) : fat := Fat a (sv_vtable s).
(** The reference the code forms. *)
Definition word_ref (s : scopev) (a : N) : fat :=
  match sv_words s with w0 :: w1 :: _ => Fat w0 w1 | _ => Fat 0 0 end.

(** The code returns normally. *)
Fixpoint returns (p : prog) : Prop :=
  match p with
  | PDone => True
  | PPanic => False
  | PLook k => returns k
  | PSpawn None _ _ => False
  | PSpawn (Some s) body k => 16 <= sv_size s /\ returns body /\ returns k
  | PCatch _ k => returns k
  end.
(** No panic passes through a [spawn] and no scope is smaller than a reference. *)
Fixpoint calm (p : prog) : Prop :=
  match p with
  | PDone | PPanic => True
  | PLook k => calm k
  | PSpawn None _ _ => True
  | PSpawn (Some s) body k => 16 <= sv_size s /\ calm body /\ returns body /\ calm k
  | PCatch body k => calm body /\ calm k
  end.
(** The scope values start with a reference to themselves ([a]: the next free address). *)
Fixpoint self_scoped (p : prog) (a : N) : Prop :=
  match p with
  | PDone | PPanic | PSpawn None _ _ => True
  | PLook k => self_scoped k a
  | PSpawn (Some s) body k =>
      word_ref s a = self_ref s a /\ self_scoped body (a + 1) /\
      forall cur, self_scoped k (snd (nest self_ref body cur (a + 1)))
  | PCatch body k => self_scoped body a /\ forall cur, self_scoped k (snd (nest self_ref body cur a))
  end.
