(** Property C79: Rc without downgrade. *)
From Verif Require Import CalmRcFacts.

(** Every history of [Rc]s without [downgrade] does, call by call, what the specification of shared
    cells says: reads see the shared value, counts are exact, [get_mut] and [try_unwrap] succeed
    exactly for the only handle, [make_mut] copies exactly when shared; panics come only from
    [Clone] of a value and refused allocations. *)
Theorem C79_rc_history : forall (EN : Env) (T : Type) (EL : Elem T) (w0 : world (rcbox T)) ops,
  (forall b, next_id w0 <= b -> heap w0 !! b = None) -> llen ops + 2 <= usize_max ->
  (forall i, RDowngrade i ∉ ops) ->
  exists refs outs st tab w, rrun ops ([], ([], w0)) = (outs, (tab, ([], w))) /\
    rtrace t_clone (RcSpec [] []) ops refs outs st /\ length outs = length ops /\
    Forall (fun r => r = None \/ r = Some PUnwrap \/ r = Some PNoEnv) refs /\
    ((forall n k, e_aok n k = true) -> is_Some (cur_scope w0) -> Forall (eq None) refs).
Proof. exact p_C79_rc_history. Qed.
Print Assumptions C79_rc_history.

Example C79_rc_history_ex :
  let ops := [RNew 5; RClone 0; RCounts 1; RGetMut 0 6; RMakeMut 1 7; RRead 0; RRead 1; RTryUnwrap 1; RWNew; RWUpgrade 2] in
  (forall b, next_id wr_start <= b -> heap wr_start !! b = None) /\ (forall i, RDowngrade i ∉ ops) /\
  fst (rdemo env_debug ops)
  = [Ret RDone; Ret RDone; Ret (RNums 2 0); Ret (RMaybe None); Ret (RGot 5); Ret (RGot 5); Ret (RGot 7);
     Ret (RMaybe (Some 7)); Ret RDone; Ret (RBool false)].
Proof. exact x_C79_rc_history_ex. Qed.
