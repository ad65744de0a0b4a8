(** Model of src/arc.rs under the release/acquire rules of the memory model, on top of [ArcModel].

    The steps are those of [ArcModel].  Here an atomic load need not return the latest value: each
    counter has the history of the values written to it, each call in progress knows a part of it, and
    a load returns any value that is not older than what the call already knows.  The accesses to the
    value, to the counters and the freeing of the memory are recorded with the accesses that happen before
    them, as given by the orderings named in the code.

    Simplifications: a value is appended to the history when it is written (the counter [strong] is
    only written by read-modify-write operations, which always act on the latest value, and [weak] is stored
    to only by the call that has locked it); [SeqCst] is taken as acquire and release, its total order
    gives nothing here because no other access is [SeqCst].  Passing a handle or a reference to
    another thread orders what was done before with what is done after; a call on a borrowed handle happens
    after the beginning of the borrow and before the next use of that handle by [&mut] or by value.  Nothing
    else orders calls on different handles (two handles of one thread are more ordered than here). *)
From Verif Require Export OrdModel ArcModel.

(** What is known to the owner of a handle and to the shared calls in progress on it. *)
Record hview := HV { hv_own : tview; hv_calls : list tview }.

(** [w_arc] is the configuration of [ArcModel]; its counters have the latest values. *)
Record wconf (T : Type) := WConf {
  w_arc : aconf T; w_strong : list msg; w_weak : list msg; w_trace : list access; w_hv : list hview }.
Arguments WConf {T}. Arguments w_arc {T}. Arguments w_strong {T}. Arguments w_weak {T}.
Arguments w_trace {T}. Arguments w_hv {T}.

(** Calls taking [&Arc]. *)
Definition action_s (s : spc) : action :=
  match s with
  (* src/arc.rs 480 *)
  | SClone0 => ARmw LStrong Relaxed Relaxed
  | SClone1 _ => ANone
  (* src/arc.rs 380-383 *)
  | SRead => APlain KRead
  (* src/arc.rs 260 *)
  | SDown0 => ALoad LWeak Relaxed
  (* src/arc.rs 67-72, 263 and 87-95, 264 *)
  | SDown v => if v =? usize_max then ALoad LWeak Relaxed else ARmw LWeak Acquire Relaxed
  end.

(** Calls taking [&mut Arc] or [Arc]. *)
Definition action_x (x : xpc) : action :=
  match x with
  | XHeld | XGone => ANone
  (* the mutable reference *)
  | XMut => APlain KWrite
  (* src/arc.rs 505 *)
  | XDrop | XDropMoved => ARmw LStrong Release Relaxed
  (* src/arc.rs 352 *)
  | XDestroy => APlain KWrite
  (* src/arc.rs 355 *)
  | XLoadW => ALoad LWeak Acquire
  (* src/arc.rs 356 *)
  | XFree => APlain KFree
  (* src/arc.rs 228 *)
  | XCas => ARmw LStrong Acquire Relaxed
  (* src/arc.rs 237: the value is moved out *)
  | XTake => APlain KWrite
  (* src/arc.rs 240, 241 *)
  | XULoadW => ALoad LWeak Acquire
  | XUFree => APlain KFree
  (* src/arc.rs 324, 330, 335 *)
  | XLock => ARmw LWeak Acquire Relaxed
  | XLoadS => ALoad LStrong Acquire
  | XUnlock _ => AStore LWeak Release
  (* src/arc.rs 176, 177, 193, 197 *)
  | XM0 => ALoad LStrong Acquire
  | XM1 _ => ALoad LWeak Acquire
  | XMInc _ => ARmw LWeak Release Relaxed
  | XMZero => ARmw LStrong Acquire Relaxed
  (* src/arc.rs 200: the value is moved out *)
  | XMTake => APlain KWrite
  | XMNew => ANone
  (* src/arc.rs 208, 215: [T::clone] reads the value *)
  | XMClone => APlain KRead
  | XMNewC => ANone
  end.

(** src/arc.rs 537: the fence between the decrement and [drop_slow]. *)
Definition fence_x (x : xpc) : option ord := match x with XDestroy => Some Acquire | _ => None end.

(** [WStep l t]: a step of [ArcModel]; if it reads a counter, it reads the value number [t] of the history.
    [WCount i l t]: [strong_count] (278-280) or [weak_count] (270-275) of handle [i]. *)
Inductive wlabel (T : Type) := WStep (l : alabel T) (t : nat) | WCount (i : nat) (l : loc) (t : nat).
Arguments WStep {T}. Arguments WCount {T}.

Section arc_ord.
  Context {PR : Profile} {T : Type}.
  Notation conf := (aconf T).
  Notation wconf := (wconf T).
  Implicit Types (c : conf) (w : wconf).

  (** The latest value of a counter (src/arc.rs 20, 21). *)
  Definition counter (l : loc) c : N := match l with LStrong => a_strong c | LWeak => a_weak c end.
  (** Write a counter (src/arc.rs 20, 21). *)
  Definition set_counter (l : loc) (n : N) c : conf :=
    match l with LStrong => set_strong n c | LWeak => set_weak n c end.
  (** The values written to a counter so far (src/arc.rs 20, 21). *)
  Definition hist (l : loc) w : list msg := match l with LStrong => w_strong w | LWeak => w_weak w end.

  (** Replace the part that is [ArcModel] (no counterpart in src/arc.rs). *)
  Definition set_arc c w : wconf := WConf c (w_strong w) (w_weak w) (w_trace w) (w_hv w).
  (** Replace what is known to the handles (no counterpart in src/arc.rs). *)
  Definition set_hv (hvs : list hview) w : wconf := WConf (w_arc w) (w_strong w) (w_weak w) (w_trace w) hvs.
  (** A new value of a counter (src/arc.rs 20, 21). *)
  Definition append (l : loc) (m : msg) w : wconf :=
    match l with
    | LStrong => WConf (w_arc w) (w_strong w ++ [m]) (w_weak w) (w_trace w) (w_hv w)
    | LWeak => WConf (w_arc w) (w_strong w) (w_weak w ++ [m]) (w_trace w) (w_hv w)
    end.

  (** An access is made: it is recorded, and happens before whatever the call does next. *)
  Definition record (k : akind) (tv : tview) w : wconf :=
    WConf (w_arc w) (w_strong w) (w_weak w) (w_trace w ++ [Access k (v_seen (t_cur tv))]) (w_hv w).
  (** What is known after the access (no counterpart in src/arc.rs). *)
  Definition made w (tv : tview) : tview :=
    TV (vjoin (t_cur tv) (View 0 0 {[ length (w_trace w) ]})) (t_read tv).

  (** The step [go] of [ArcModel] is made with the access [a] by a call knowing [tv]. *)
  Definition perform (a : action) (t : nat) (tv : tview) w (go : conf -> option conf) : option (tview * wconf) :=
    let c := w_arc w in
    match a with
    | ANone => c' ← go c; Some (tv, set_arc c' w)
    | APlain k => c' ← go c; Some (made w tv, record k tv (set_arc c' w))
    | ALoad l o =>
        m ← hist l w !! t;
        if (v_pos l (t_cur tv) <=? t)%nat then
          c' ← go (set_counter l (m_val m) c);
          Some (got l o t m (made w tv), record KAtomic tv (set_arc (set_counter l (counter l c) c') w))
        else None
    | ARmw l o f =>
        m ← hist l w !! t;
        if (v_pos l (t_cur tv) <=? t)%nat then
          c' ← go (set_counter l (m_val m) c);
          if counter l c' =? m_val m then
            Some (got l f t m (made w tv), record KAtomic tv (set_arc (set_counter l (counter l c) c') w))
          else if (S t =? length (hist l w))%nat then
            let tv' := got l o t m (made w tv) in
            let n := length (hist l w) in
            let tv1 := TV (v_at l n (t_cur tv')) (t_read tv') in
            Some (tv1, append l (message l o n (m_view m) (t_cur tv1) (counter l c')) (record KAtomic tv (set_arc c' w)))
          else None
        else None
    | AStore l o =>
        c' ← go c;
        let n := length (hist l w) in
        let tv' := made w tv in
        let tv1 := TV (v_at l n (t_cur tv')) (t_read tv') in
        Some (tv1, append l (message l o n v_none (t_cur tv1) (counter l c')) (record KAtomic tv (set_arc c' w)))
    end.

  (** A shared call of handle [i] has made a step: if it is over, what it knew is known to the owner of the
      handle; a new handle knows what the call knew. *)
  Definition after_shared (i k : nat) (h : ahandle) (hv : hview) (tv : tview) w0 w : wconf :=
    let ended := match a_hs (w_arc w) !! i with
                 | Some h' => (length (h_sh h') <? length (h_sh h))%nat | None => false end in
    let hv' := if ended then HV (TV (vjoin (t_cur (hv_own hv)) (t_cur tv)) (t_read (hv_own hv))) (delete k (hv_calls hv))
               else HV (hv_own hv) (<[k := tv]> (hv_calls hv)) in
    let hvs := <[i := hv']> (w_hv w) in
    set_hv (if (length (a_hs (w_arc w0)) <? length (a_hs (w_arc w)))%nat then hvs ++ [HV (TV (t_cur tv) v_none) []] else hvs) w.

  (** A step of any call of src/arc.rs, by the line given in [action_s] and [action_x] above. *)
  Definition wstep (l : wlabel T) w : option wconf :=
    match l with
    | WStep (LBeginS i _ as l) _ =>
        c' ← astep l (w_arc w); hv ← w_hv w !! i;
        Some (set_hv (<[i := HV (hv_own hv) (hv_calls hv ++ [TV (t_cur (hv_own hv)) v_none])]> (w_hv w)) (set_arc c' w))
    | WStep (LBeginX _ _ as l) _ | WStep (LWeakDrop as l) _ => c' ← astep l (w_arc w); Some (set_arc c' w)
    | WStep (LSh i k _ as l) t =>
        h ← a_hs (w_arc w) !! i; s ← h_sh h !! k; hv ← w_hv w !! i; tv ← hv_calls hv !! k;
        '(tv', w') ← perform (action_s s) t tv w (astep l);
        Some (after_shared i k h hv tv' w w')
    | WStep (LEx i _ as l) t =>
        h ← a_hs (w_arc w) !! i; hv ← w_hv w !! i;
        '(tv', w') ← perform (action_x (h_ex h)) t (fenced (fence_x (h_ex h)) (hv_own hv)) w (astep l);
        Some (set_hv (<[i := HV tv' (hv_calls hv)]> (w_hv w')) w')
    | WStep (LEndMut i _ as l) t =>
        hv ← w_hv w !! i;
        '(tv', w') ← perform (action_x XMut) t (hv_own hv) w (astep l);
        Some (set_hv (<[i := HV tv' (hv_calls hv)]> (w_hv w')) w')
    (* split into the two calls *)
    | WStep (LCounts _) _ => None
    (* src/arc.rs 270-280 *)
    | WCount i l t =>
        match a_hs (w_arc w) !! i with
        | Some (AHandle XHeld _) =>
            hv ← w_hv w !! i;
            '(tv', w') ← perform (ALoad l SeqCst) t (hv_own hv) w (fun c => Some (checked (mem_ok c) c
              (say (match l with LStrong => AStrong (a_strong c)
                    | LWeak => AWeakCount (if a_weak c =? usize_max then 0 else a_weak c) end) c)));
            Some (set_hv (<[i := HV tv' (hv_calls hv)]> (w_hv w')) w')
        | _ => None
        end
    end.

  (** A run (no counterpart in src/arc.rs). *)
  Fixpoint wrun (ls : list (wlabel T)) w : option wconf :=
    match ls with
    | [] => Some w
    | l :: ls => match wstep l w with Some w' => wrun ls w' | None => None end
    end.

  (** What [Arc::new(x)] returns (135-150): the first access is the initialisation of the value. *)
  Definition w_init (x : T) : wconf :=
    WConf (arc_init x) [Msg 1 v_none] [Msg 0 v_none] [Access KWrite ∅] [HV (TV (View 0 0 {[0%nat]}) v_none) []].
End arc_ord.
