(** Specification of shared handles, independent of counters and memory: a program has a list of
    cells (shared values) and a table of handles; a handle is an [Rc] to a cell, a [Weak] to a
    cell, or an empty [Weak]. *)
From Verif Require Export RcModel Count.

Inductive shandle := SRc (c : nat) | SWeak (o : option nat).
Global Instance shandle_eq_dec : EqDecision shandle. Proof. solve_decision. Defined.

(** [None] in [s_cells]: the value was moved out; [None] in [s_tab]: the handle is gone. *)
Record rcspec (T : Type) := RcSpec { s_cells : list (option T); s_tab : list (option shandle) }.
Arguments RcSpec {T}. Arguments s_cells {T}. Arguments s_tab {T}.

(** Number of live [Rc] and [Weak] handles of a cell. *)
Definition strong_of {T} (st : rcspec T) (c : nat) : N :=
  cnt (fun h => bool_decide (h = Some (SRc c))) (s_tab st).
Definition weak_of {T} (st : rcspec T) (c : nat) : N :=
  cnt (fun h => bool_decide (h = Some (SWeak (Some c)))) (s_tab st).

Section spec_rc.
  Context {T : Type} (clone : T -> option T).
  Implicit Types (st : rcspec T).

  Definition add_handle (h : shandle) st : rcspec T := RcSpec (s_cells st) (s_tab st ++ [Some h]).
  Definition set_handle (i : nat) (h : option shandle) st : rcspec T :=
    RcSpec (s_cells st) (<[i := h]> (s_tab st)).
  Definition set_cell (c : nat) (o : option T) st : rcspec T :=
    RcSpec (<[c := o]> (s_cells st)) (s_tab st).
  Definition add_cell (x : T) st : rcspec T := RcSpec (s_cells st ++ [Some x]) (s_tab st).

  (** What each call returns and does.  [refused]: the allocator refuses, with this panic. *)
  Definition rspec (refused : option panic) st (op : rop T) : res (robs T) * rcspec T :=
    let rc i (k : nat -> res (robs T) * rcspec T) :=
      match s_tab st !! i with Some (Some (SRc c)) => k c | _ => (Ret RIll, st) end in
    let weak i (k : option nat -> res (robs T) * rcspec T) :=
      match s_tab st !! i with Some (Some (SWeak o)) => k o | _ => (Ret RIll, st) end in
    let value c (k : T -> res (robs T) * rcspec T) :=
      match s_cells st !! c with Some (Some x) => k x | _ => (UB UseAfterMove, st) end in
    let new_cell x (k : rcspec T -> res (robs T) * rcspec T) :=
      match refused with Some p => (Panic p, st) | None => k (add_cell x st) end in
    let counts c := match c with
                    | Some c => Ret (RNums (strong_of st c) (weak_of st c))
                    | None => Ret (RNums 0 0) end in
    match op with
    | RNew x => new_cell x (fun st' => (Ret RDone, add_handle (SRc (length (s_cells st))) st'))
    | RClone i => rc i (fun c => (Ret RDone, add_handle (SRc c) st))
    | RDrop i => rc i (fun c => (Ret RDone, set_handle i None st))
    | RDowngrade i => rc i (fun c => (Ret RDone, add_handle (SWeak (Some c)) st))
    | RRead i => rc i (fun c => value c (fun x => (Ret (RGot x), st)))
    | RCounts i => rc i (fun c => (counts (Some c), st))
    | RGetMut i y =>
        rc i (fun c => value c (fun x =>
          if (strong_of st c =? 1) && (weak_of st c =? 0)
          then (Ret (RMaybe (Some x)), set_cell c (Some y) st) else (Ret (RMaybe None), st)))
    | RMakeMut i y =>
        rc i (fun c => value c (fun x =>
          if strong_of st c =? 1 then
            if weak_of st c =? 0 then (Ret (RGot x), set_cell c (Some y) st)
            else new_cell y (fun st' =>
              (Ret (RGot x), set_handle i (Some (SRc (length (s_cells st)))) (set_cell c None st')))
          else
            match clone x with
            | None => (Panic PUser, st)
            | Some x' => new_cell y (fun st' =>
                (Ret (RGot x'), set_handle i (Some (SRc (length (s_cells st)))) st'))
            end))
    | RTryUnwrap i =>
        rc i (fun c => value c (fun x =>
          if strong_of st c =? 1
          then (Ret (RMaybe (Some x)), set_handle i None (set_cell c None st))
          else (Ret (RMaybe None), st)))
    | RPtrEq i j => rc i (fun c => rc j (fun c' => (Ret (RBool (bool_decide (c = c'))), st)))
    | RWNew => (Ret RDone, add_handle (SWeak None) st)
    | RWUpgrade i =>
        weak i (fun o => match o with
          | Some c => if strong_of st c =? 0 then (Ret (RBool false), st)
                      else (Ret (RBool true), add_handle (SRc c) st)
          | None => (Ret (RBool false), st) end)
    | RWClone i => weak i (fun o => (Ret RDone, add_handle (SWeak o) st))
    | RWDrop i => weak i (fun o => (Ret RDone, set_handle i None st))
    | RWCounts i => weak i (fun o => (counts o, st))
    | RWPtrEq i j => weak i (fun o => weak j (fun o' => (Ret (RBool (bool_decide (o = o'))), st)))
    end.

  (** The call takes the last [Rc] away from a cell that still has [Weak] handles. *)
  Definition orphans st (op : rop T) : Prop :=
    exists i c, (op = RDrop i \/ op = RTryUnwrap i \/ exists y, op = RMakeMut i y) /\
      s_tab st !! i = Some (Some (SRc c)) /\ strong_of st c = 1 /\ weak_of st c <> 0.

  Definition defined_out (r : res (robs T)) : Prop :=
    match r with Ret _ | Panic _ => True | _ => False end.

  (** Histories that follow the specification and orphan no cell. *)
  Inductive rtrace : rcspec T -> list (rop T) -> list (option panic) -> list (res (robs T)) ->
                     rcspec T -> Prop :=
  | rtrace_nil st : rtrace st [] [] [] st
  | rtrace_cons st op ops r rs o outs st' st'' :
      ~ orphans st op -> rspec r st op = (o, st') -> defined_out o ->
      rtrace st' ops rs outs st'' -> rtrace st (op :: ops) (r :: rs) (o :: outs) st''.
End spec_rc.

(** Statements about histories that start without handles in a world whose identifiers are fresh. *)
Section rc_histories.
  Context {EN : Env} {T : Type} {EL : Elem T}.
  Notation W := (world (rcbox T)).

  (** The calls [ops] lead to the handle table [tab], the log of destructors [d] and the world [w].
      (Fewer than 2^64 - 2 calls, so that no counter can overflow.) *)
  Definition rc_reached (w0 : W) (ops : list (rop T)) (tab : list (option handle)) (d : list T)
      (w : W) : Prop :=
    (forall b, next_id w0 <= b -> heap w0 !! b = None) /\ llen ops + 2 <= usize_max /\
    exists outs, rrun ops ([], ([], w0)) = (outs, (tab, (d, w))).

  (** ... and did so as specified, without orphaning a value, ending in [st]. *)
  Definition rc_follows (w0 : W) (ops : list (rop T)) (st : rcspec T) (tab : list (option handle))
      (d : list T) (w : W) : Prop :=
    (forall b, next_id w0 <= b -> heap w0 !! b = None) /\ llen ops + 2 <= usize_max /\
    exists refs outs, rtrace t_clone (RcSpec [] []) ops refs outs st /\
      rrun ops ([], ([], w0)) = (outs, (tab, (d, w))).

  (** What the value looks like through handle [i]. *)
  Definition reads (i : nat) (s : list (option handle) * (list T * W)) : res (robs T) :=
    fst (rexec (RRead i) s).
End rc_histories.

(** The block a handle points to; the number of [Rc]s and [Weak]s that point to a block. *)
Definition target (h : option handle) : option ptr :=
  match h with
  | Some (HRc p) | Some (HWeak (Some p)) => Some (sp_ptr p)
  | _ => None
  end.
Definition live_rcs (q : ptr) (tab : list (option handle)) : N :=
  cnt (fun h => match h with Some (HRc p) => bool_decide (sp_ptr p = q) | _ => false end) tab.
Definition live_weaks (q : ptr) (tab : list (option handle)) : N :=
  cnt (fun h => match h with Some (HWeak (Some p)) => bool_decide (sp_ptr p = q) | _ => false end) tab.
