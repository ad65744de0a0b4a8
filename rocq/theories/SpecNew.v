(** Vocabulary of the statements about creating shared pointers. *)
From Verif Require Export Mem.

(** The layout of a struct whose fields need [size] bytes and have greatest alignment [align]: the least
    multiple of the alignment that holds them. *)
Definition struct_layout (size align : N) (l : layout) : Prop :=
  l_align l = align /\ size <= l_size l /\ l_size l < size + align /\ exists k, l_size l = k * align.

(** A block of memory that is new in [w'] and holds exactly [x]; everything else is as in [w]. *)
Definition one_new {B} (w w' : world B) (b a : N) (l : layout) (x : B) : Prop :=
  heap w !! b = None /\ heap w' = <[b := Block a l [Some x]]> (heap w).

(** What the current scope and the allocators saw: [l] was requested from the allocator selected for [s]. *)
Definition asked (sc : N) (s : selector) (a : N) (l : layout) (r : option N) : list aevent :=
  [EvSelect sc s; EvAlloc a l r].
