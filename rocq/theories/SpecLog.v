(** Specification of a correct allocator log: what a monitor placed between the program and its
    allocators accepts.  Independent of the heap model. *)
From Verif Require Import Mem.

(** Live blocks with the allocator that served them and the layout they have. *)
Notation owners := (gmap N (N * layout)).

(** [replay m evs]: the live blocks after the log [evs], [None] when some release or resize names
    a block that is not live, another allocator, or another layout. *)
Fixpoint replay (m : owners) (evs : list aevent) : option owners :=
  match evs with
  | [] => Some m
  | EvSelect _ _ :: evs => replay m evs
  | EvAlloc a l None :: evs => replay m evs
  | EvAlloc a l (Some b) :: evs =>
      match m !! b with None => replay (<[b := (a, l)]> m) evs | Some _ => None end
  | EvRealloc a b l n r :: evs =>
      if decide (m !! b = Some (a, l)) then
        match r with
        | None => replay m evs
        | Some b' =>
            match m !! b' with
            | None => replay (<[b' := (a, Layout n (l_align l))]> (delete b m)) evs
            | Some _ => None
            end
        end
      else None
  | EvDealloc a b l :: evs =>
      if decide (m !! b = Some (a, l)) then replay (delete b m) evs else None
  end.

Definition live_blocks {T} (w : world T) : owners :=
  (fun blk => (b_alloc blk, b_layout blk)) <$> heap w.
