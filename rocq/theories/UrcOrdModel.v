(** Model of src/urc.rs under the release/acquire rules of the memory model, on top of [UrcModel].

    The steps are those of [UrcModel].  Here an atomic load need not return the latest value: each of the two
    counters of the master has the history of the values written to it, and a load returns any value that is not
    older than what the thread already knows.  The accesses to the value, to the counters and the freeing of the
    master are recorded with the accesses that happen before them, as given by the orderings named in the code.

    All handles of one fence are used by one thread (they are neither [Send] nor [Sync]), so what is known is
    kept for each fence.  The handle of a new fence is sent to another thread inside an envelope: that thread
    knows what the sender knew.  Nothing else orders calls on handles of different fences (two fences of one
    thread are more ordered than here).  The counters of a fence are cells used by that thread alone.

    Simplification: a value is appended to the history when it is written ([strong_fence] is, but for the
    store in [make_mut], only written by read-modify-write operations, which always act on the latest value). *)
From Verif Require Export OrdModel UrcModel.

(** [x_urc] is the configuration of [UrcModel]; its counters have the latest values.  [x_fv]: what is known to the
    thread of each fence. *)
Record xconf (T : Type) := XConf {
  x_urc : uconf T; x_strong : list msg; x_weak : list msg; x_trace : list access; x_fv : list tview }.
Arguments XConf {T}. Arguments x_urc {T}. Arguments x_strong {T}. Arguments x_weak {T}.
Arguments x_trace {T}. Arguments x_fv {T}.

(** The access made by the step of a call in progress. *)
Definition action_u (p : upc) : action :=
  match p with
  (* src/urc.rs 499-503, 521: only the fence *)
  | UDrop => ANone
  (* src/urc.rs 505, 514; the destructor in between (511) does nothing *)
  | UDSub => ARmw LStrong Release Relaxed
  | UDLoadW => ALoad LWeak Acquire
  (* src/urc.rs 262; 277: the value is moved out; 285, 286 *)
  | UCas => ARmw LStrong Acquire Relaxed
  | UTake => APlain KWrite
  | UULoadW => ALoad LWeak Acquire
  | UUFree => APlain KFree
  (* src/urc.rs 403, 406, 408 *)
  | ULock => ARmw LWeak Acquire Relaxed
  | ULoadS => ALoad LStrong Acquire
  | UStore0 => AStore LWeak Release
  (* src/urc.rs 323, 327, 356, 357 *)
  | UM0 => ALoad LStrong Acquire
  | UM1 => ALoad LWeak Acquire
  | UMLoad => ALoad LWeak Acquire
  | UMInc _ => ARmw LWeak Release Relaxed
  | UMWeak => ANone
  (* src/urc.rs 312: the value is moved out; 316 *)
  | UMTake => APlain KWrite
  | UMStore => AStore LStrong Release
  | UMNew => ANone
  (* src/urc.rs 304: [T::clone] reads the value *)
  | UMClone => APlain KRead
  | UMNewC => ANone
  (* src/urc.rs 622 *)
  | UEnvAdd => ARmw LStrong Acquire Relaxed
  | UEnvAlloc => ANone
  (* src/urc.rs 528-531, 533, 536 *)
  | WDrop => ANone
  | WSub => ARmw LWeak Release Relaxed
  | WLoadS => ALoad LStrong Acquire
  | UHeld | UMut | UGone | UForgot | UFence | WHeld | WForgot | WLeaked => ANone
  end.
(** src/urc.rs 507, 534: the fences after the decrements. *)
Definition fence_u (p : upc) : option ord := match p with UDLoadW | WLoadS => Some Acquire | _ => None end.

Section urc_ord.
  Context {PR : Profile} {T : Type}.
  Notation conf := (uconf T).
  Notation xconf := (xconf T).
  Implicit Types (c : conf) (w : xconf).

  (** The handle a label is about. *)
  Definition who (l : ulabel T) : nat :=
    match l with LCall i _ | LBegin i _ | LStep i _ | LEndMut i _ | LDropFence i | LWDrop i | LWForget i => i end.
  (** The memory access of a step of src/urc.rs. *)
  Definition action_l (l : ulabel T) (p : upc) : action :=
    match l with
    (* src/urc.rs 462-476 *)
    | LCall _ CRead => APlain KRead
    (* src/urc.rs 150-153 *)
    | LCall _ CCounts => ALoad LStrong Acquire
    (* the mutable reference *)
    | LEndMut _ _ => APlain KWrite
    | LStep _ _ => action_u p
    | _ => ANone
    end.
  (** The [atomic::fence] before a step of src/urc.rs, as in [fence_u]. *)
  Definition fence_l (l : ulabel T) (p : upc) : option ord :=
    match l with LStep _ _ => fence_u p | _ => None end.

  (** The latest value of a counter (src/urc.rs 107-117). *)
  Definition counter (l : loc) c : N := match l with LStrong => u_sf c | LWeak => u_wf c end.
  (** Write a counter (src/urc.rs 107-117). *)
  Definition set_counter (l : loc) (n : N) c : conf := match l with LStrong => set_sf n c | LWeak => set_wf n c end.
  (** The values written to a counter so far (src/urc.rs 107-117). *)
  Definition hist (l : loc) w : list msg := match l with LStrong => x_strong w | LWeak => x_weak w end.

  (** Replace the part that is [UrcModel] (no counterpart in src/urc.rs). *)
  Definition set_urc c w : xconf := XConf c (x_strong w) (x_weak w) (x_trace w) (x_fv w).
  (** Replace what is known to the threads of the fences (no counterpart in src/urc.rs). *)
  Definition set_fv (fvs : list tview) w : xconf := XConf (x_urc w) (x_strong w) (x_weak w) (x_trace w) fvs.
  (** A new value of a counter (src/urc.rs 107-117). *)
  Definition append (l : loc) (m : msg) w : xconf :=
    match l with
    | LStrong => XConf (x_urc w) (x_strong w ++ [m]) (x_weak w) (x_trace w) (x_fv w)
    | LWeak => XConf (x_urc w) (x_strong w) (x_weak w ++ [m]) (x_trace w) (x_fv w)
    end.

  (** An access is made: it is recorded, and happens before whatever the thread does next. *)
  Definition record (k : akind) (tv : tview) w : xconf :=
    XConf (x_urc w) (x_strong w) (x_weak w) (x_trace w ++ [Access k (v_seen (t_cur tv))]) (x_fv w).
  (** What is known after the access (no counterpart in src/urc.rs). *)
  Definition made w (tv : tview) : tview :=
    TV (vjoin (t_cur tv) (View 0 0 {[ length (x_trace w) ]})) (t_read tv).

  (** The step [go] of [UrcModel] is made with the access [a] by a thread knowing [tv]. *)
  Definition perform (a : action) (t : nat) (tv : tview) w (go : conf -> option conf) : option (tview * xconf) :=
    let c := x_urc w in
    match a with
    | ANone => c' ← go c; Some (tv, set_urc c' w)
    | APlain k => c' ← go c; Some (made w tv, record k tv (set_urc c' w))
    | ALoad l o =>
        m ← hist l w !! t;
        if (v_pos l (t_cur tv) <=? t)%nat then
          c' ← go (set_counter l (m_val m) c);
          Some (got l o t m (made w tv), record KAtomic tv (set_urc (set_counter l (counter l c) c') w))
        else None
    | ARmw l o f =>
        m ← hist l w !! t;
        if (v_pos l (t_cur tv) <=? t)%nat then
          c' ← go (set_counter l (m_val m) c);
          if counter l c' =? m_val m then
            Some (got l f t m (made w tv), record KAtomic tv (set_urc (set_counter l (counter l c) c') w))
          else if (S t =? length (hist l w))%nat then
            let tv' := got l o t m (made w tv) in
            let n := length (hist l w) in
            let tv1 := TV (v_at l n (t_cur tv')) (t_read tv') in
            Some (tv1, append l (message l o n (m_view m) (t_cur tv1) (counter l c')) (record KAtomic tv (set_urc c' w)))
          else None
        else None
    | AStore l o =>
        c' ← go c;
        let n := length (hist l w) in
        let tv' := made w tv in
        let tv1 := TV (v_at l n (t_cur tv')) (t_read tv') in
        Some (tv1, append l (message l o n v_none (t_cur tv1) (counter l c')) (record KAtomic tv (set_urc c' w)))
    end.

  (** The step [l] of [UrcModel]; if it reads a counter, it reads the value number [t] of the history. *)
  Definition xstep (l : ulabel T) (t : nat) w : option xconf :=
    h ← u_hs (x_urc w) !! who l; tv ← x_fv w !! u_fence h;
    '(tv', w') ← perform (action_l l (u_pc h)) t (fenced (fence_l l (u_pc h)) tv) w (ustep l);
    let fvs := <[u_fence h := tv']> (x_fv w) in
    Some (set_fv (if (length (u_fences (x_urc w)) <? length (u_fences (x_urc w')))%nat then fvs ++ [TV (t_cur tv') v_none] else fvs) w').

  (** A run (no counterpart in src/urc.rs). *)
  Fixpoint xrun (ls : list (ulabel T * nat)) w : option xconf :=
    match ls with
    | [] => Some w
    | (l, t) :: ls => match xstep l t w with Some w' => xrun ls w' | None => None end
    end.

  (** What [Urc::new(x)] returns (213-239): the first access is the initialisation of the value. *)
  Definition x_init (x : T) : xconf :=
    XConf (urc_init x) [Msg 1 v_none] [Msg 0 v_none] [Access KWrite ∅] [TV (View 0 0 {[0%nat]}) v_none].
End urc_ord.
