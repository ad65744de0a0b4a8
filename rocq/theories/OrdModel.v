(** Atomic accesses under the release/acquire rules of the memory model, as used by [ArcOrdModel] and
    [UrcOrdModel]: what a call knows of the history of two counters, and which accesses happen before
    which. *)
From Verif Require Export Base.

(** The orderings named in the code. *)
Inductive ord := Relaxed | Acquire | Release | SeqCst.
(** Does a load with this ordering acquire (the memory model behind src/arc.rs and src/urc.rs)? *)
Definition acquires (o : ord) : bool := match o with Acquire | SeqCst => true | _ => false end.
(** Does a store with this ordering release? *)
Definition releases (o : ord) : bool := match o with Release | SeqCst => true | _ => false end.

(** The two counters: [strong] and [weak] (src/arc.rs 20, 21), [strong_fence] and [weak_fence] (src/urc.rs 107-117). *)
Inductive loc := LStrong | LWeak.

(** What is known: positions in the two histories, and the accesses that happened before. *)
Record view := View { v_strong : nat; v_weak : nat; v_seen : gset nat }.
(** Nothing is known. *)
Definition v_none : view := View 0 0 ∅.
(** What is known from two sources together. *)
Definition vjoin (v1 v2 : view) : view :=
  View (max (v_strong v1) (v_strong v2)) (max (v_weak v1) (v_weak v2)) (v_seen v1 ∪ v_seen v2).
(** The position known in the history of one counter. *)
Definition v_pos (l : loc) (v : view) : nat := match l with LStrong => v_strong v | LWeak => v_weak v end.
(** The value number [n] of one counter becomes known. *)
Definition v_at (l : loc) (n : nat) (v : view) : view :=
  match l with LStrong => View (max n (v_strong v)) (v_weak v) (v_seen v)
  | LWeak => View (v_strong v) (max n (v_weak v)) (v_seen v) end.

(** What a call knows, and what it would know after an acquire fence (what the values it read carry). *)
Record tview := TV { t_cur : view; t_read : view }.
(** A value written to a counter and what is made known to those who acquire it. *)
Record msg := Msg { m_val : N; m_view : view }.

(** Kinds of accesses: to a counter, reading the value, writing or destroying it, releasing the
    memory. *)
Inductive akind := KAtomic | KRead | KWrite | KFree.
(** An access and the earlier accesses that happen before it. *)
Record access := Access { ac_kind : akind; ac_before : gset nat }.

(** The memory access of a step.  [ARmw l o f]: a read-modify-write with ordering [o], or [f] where the
    comparison fails. *)
Inductive action :=
  | ANone | ALoad (l : loc) (o : ord) | ARmw (l : loc) (o f : ord) | AStore (l : loc) (o : ord)
  | APlain (k : akind).

(** Message number [t] of counter [l] is read with ordering [o]. *)
Definition got (l : loc) (o : ord) (t : nat) (m : msg) (tv : tview) : tview :=
  let v := v_at l t (t_cur tv) in
  TV (if acquires o then vjoin v (m_view m) else v) (vjoin (t_read tv) (m_view m)).
(** The message number [n] is written with ordering [o] by a call knowing [v]; [v0] is what the message read by
    the same operation carries (a read-modify-write operation continues the release sequence). *)
Definition message (l : loc) (o : ord) (n : nat) (v0 v : view) (x : N) : msg :=
  Msg x (v_at l n (vjoin v0 (if releases o then v else v_none))).
(** An [atomic::fence] with ordering [o] (src/arc.rs 537, src/urc.rs 507, 534): an acquire fence
    makes known what the values read carry. *)
Definition fenced (f : option ord) (tv : tview) : tview :=
  match f with
  | Some o => if acquires o then TV (vjoin (t_cur tv) (t_read tv)) (t_read tv) else tv
  | None => tv
  end.
