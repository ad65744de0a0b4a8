(** Model of the trait implementations of src/boxed.rs, and programs that use boxes.

    The methods of the boxed type are user code; they are given by the classes below as functions on
    values.  [downcast] (22-31) is left out; no [Box<dyn Any>] can be created. *)
From Verif Require Export PtrModel.

(** [PartialEq], [PartialOrd], [Ord] and [Hash] of the boxed type; [t_hash x] is what [x] feeds to a hasher.
    [Debug] and [Display]: what they write of [x]. *)
Class Ordered (T : Type) := {
  t_eq : T -> T -> bool;
  t_partial_cmp : T -> T -> option comparison;
  t_cmp : T -> T -> comparison;
  t_hash : T -> list N;
  t_debug : T -> list N;
  t_display : T -> list N
}.
(** [Iterator], [DoubleEndedIterator], [ExactSizeIterator] of the boxed type. *)
Class Iter (T A : Type) := {
  iter_next : T -> option A * T;
  iter_size_hint : T -> N * option N;
  iter_nth : N -> T -> option A * T;
  iter_next_back : T -> option A * T;
  iter_nth_back : N -> T -> option A * T;
  iter_len : T -> N
}.
(** [Hasher] of the boxed type. *)
Class Hashing (T : Type) := { h_finish : T -> N; h_write : list N -> T -> T }.

Section box_model.
  Context `{!Env} {T A : Type} `{!Elem T, !Ordered T, !Iter T A, !Hashing T}.
  Notation W := (world T).

  (** src/boxed.rs 39-49, 69-75: [as_ref], [borrow], [deref]. *)
  Definition box_ref (p : sptr) : M W T := sp_deref p.
  (** src/boxed.rs 33-37, 51-55, 77-81: [as_mut], [borrow_mut], [deref_mut]; a method called through the
      reference gets the value and leaves a new one. *)
  Definition box_ref_mut {R} (p : sptr) (f : T -> R * T) : M W R :=
    x <- sp_deref p; let '(r, y) := f x in sp_assign p y ;; ret r.

  (** src/boxed.rs 57-61, 63-67: [self.0.fmt] is that of the value. *)
  Definition box_debug (p : sptr) : M W (list N) := x <- box_ref p; ret (t_debug x).
  (** src/boxed.rs 63-67: [Display]. *)
  Definition box_display (p : sptr) : M W (list N) := x <- box_ref p; ret (t_display x).

  (** src/boxed.rs 83-112. *)
  Definition box_next (p : sptr) : M W (option A) := box_ref_mut p iter_next.
  (** src/boxed.rs 90-92: [size_hint]. *)
  Definition box_size_hint (p : sptr) : M W (N * option N) := x <- box_ref p; ret (iter_size_hint x).
  (** src/boxed.rs 94-96: [nth]. *)
  Definition box_nth (p : sptr) (n : N) : M W (option A) := box_ref_mut p (iter_nth n).
  (** src/boxed.rs 100-102: [next_back]. *)
  Definition box_next_back (p : sptr) : M W (option A) := box_ref_mut p iter_next_back.
  (** src/boxed.rs 104-106: [nth_back]. *)
  Definition box_nth_back (p : sptr) (n : N) : M W (option A) := box_ref_mut p (iter_nth_back n).
  (** src/boxed.rs 110-112: [len]. *)
  Definition box_len (p : sptr) : M W N := x <- box_ref p; ret (iter_len x).

  (** src/boxed.rs 117-121: the values are compared, [self] first. *)
  Definition box_eq (p q : sptr) : M W bool := x <- box_ref p; y <- box_ref q; ret (t_eq x y).
  (** src/boxed.rs 125-129. *)
  Definition box_hash (p : sptr) : M W (list N) := x <- box_ref p; ret (t_hash x).
  (** src/boxed.rs 131-139. *)
  Definition box_finish (p : sptr) : M W N := x <- box_ref p; ret (h_finish x).
  (** src/boxed.rs 136-138: [write]. *)
  Definition box_write (p : sptr) (bytes : list N) : M W unit :=
    box_ref_mut p (fun x => (tt, h_write bytes x)).
  (** src/boxed.rs 141-145. *)
  Definition box_partial_cmp (p q : sptr) : M W (option comparison) :=
    x <- box_ref p; y <- box_ref q; ret (t_partial_cmp x y).
  (** src/boxed.rs 147-151. *)
  Definition box_cmp (p q : sptr) : M W comparison :=
    x <- box_ref p; y <- box_ref q; ret (t_cmp x y).
  (** src/ptr.rs 135-137: [marker]. *)
  Definition box_marker (p : sptr) : marker := sp_mark p.
End box_model.

(** ** Programs: a table of boxes and calls on them *)

(** Boxes are named by their position in the table; new ones go to its end. *)
Inductive bop (T : Type) :=
| BNew (x : T) (m : marker)        (* [new] is [new_with] without a marker *)
| BRead (i : nat)
| BReplace (i : nat) (y : T)       (* [mem::replace] through [deref_mut] *)
| BEq (i j : nat) | BPartialCmp (i j : nat) | BCmp (i j : nat) | BHash (i : nat)
| BDebug (i : nat) | BDisplay (i : nat)
| BNext (i : nat) | BSizeHint (i : nat) | BNth (i : nat) (n : N)
| BNextBack (i : nat) | BNthBack (i : nat) (n : N) | BLen (i : nat)
| BFinish (i : nat) | BWrite (i : nat) (bytes : list N)
| BMarker (i : nat)
| BDrop (i : nat).
Arguments BNew {T}. Arguments BRead {T}. Arguments BReplace {T}. Arguments BEq {T}.
Arguments BPartialCmp {T}. Arguments BCmp {T}. Arguments BHash {T}.
Arguments BDebug {T}. Arguments BDisplay {T}. Arguments BNext {T}.
Arguments BSizeHint {T}. Arguments BNth {T}. Arguments BNextBack {T}. Arguments BNthBack {T}.
Arguments BLen {T}. Arguments BFinish {T}. Arguments BWrite {T}. Arguments BMarker {T}. Arguments BDrop {T}.

(** What a call returns.  [BIll]: no such box (such a program does not type check). *)
Inductive bobs (T A : Type) :=
| BIll | BDone | BGot (x : T) | BBool (b : bool) | BOrd (o : option comparison) | BWords (l : list N)
| BItem (o : option A) | BHint (h : N * option N) | BNum (n : N) | BMark (m : marker).
Arguments BIll {T A}. Arguments BDone {T A}. Arguments BGot {T A}. Arguments BBool {T A}.
Arguments BOrd {T A}. Arguments BWords {T A}. Arguments BItem {T A}. Arguments BHint {T A}.
Arguments BNum {T A}. Arguments BMark {T A}.

Section box_run.
  Context `{!Env} {T A : Type} `{!Elem T, !Ordered T, !Iter T A, !Hashing T}.
  Notation Bst := (list (option sptr) * world T)%type.
  Notation obs := (bobs T A).

  (** Look up a box of the table; no counterpart in src/boxed.rs, a program names its boxes by
      variables. *)
  Definition with_box (i : nat) (k : sptr -> M Bst obs) : M Bst obs := fun s =>
    match fst s !! i with Some (Some p) => k p s | _ => (Ret BIll, s) end.
  (** A new box gets the next name (no counterpart in src/boxed.rs). *)
  Definition push_box (p : sptr) : M Bst unit := fun s => (Ret tt, (fst s ++ [Some p], snd s)).
  (** A box is moved or dropped, its name is no longer used (no counterpart in src/boxed.rs). *)
  Definition kill_box (i : nat) : M Bst unit := fun s => (Ret tt, (<[i := None]> (fst s), snd s)).

  (** One call of the program, each by the function above that models it (src/boxed.rs 13-151,
      src/ptr.rs 33-41). *)
  Definition bexec (op : bop T) : M Bst obs :=
    match op with
    | BNew x m => p <- on_snd (box_new_with x m); push_box p ;; ret BDone
    | BRead i => with_box i (fun p => x <- on_snd (box_ref p); ret (BGot x))
    | BReplace i y =>
        with_box i (fun p => x <- on_snd (box_ref_mut p (fun x => (x, y))); ret (BGot x))
    | BEq i j => with_box i (fun p => with_box j (fun q => b <- on_snd (box_eq p q); ret (BBool b)))
    | BPartialCmp i j =>
        with_box i (fun p => with_box j (fun q => o <- on_snd (box_partial_cmp p q); ret (BOrd o)))
    | BCmp i j =>
        with_box i (fun p => with_box j (fun q => o <- on_snd (box_cmp p q); ret (BOrd (Some o))))
    | BHash i => with_box i (fun p => l <- on_snd (box_hash p); ret (BWords l))
    | BDebug i => with_box i (fun p => l <- on_snd (box_debug p); ret (BWords l))
    | BDisplay i => with_box i (fun p => l <- on_snd (box_display p); ret (BWords l))
    | BNext i => with_box i (fun p => o <- on_snd (box_next p); ret (BItem o))
    | BSizeHint i => with_box i (fun p => h <- on_snd (box_size_hint p); ret (BHint h))
    | BNth i n => with_box i (fun p => o <- on_snd (box_nth p n); ret (BItem o))
    | BNextBack i => with_box i (fun p => o <- on_snd (box_next_back p); ret (BItem o))
    | BNthBack i n => with_box i (fun p => o <- on_snd (box_nth_back p n); ret (BItem o))
    | BLen i => with_box i (fun p => n <- on_snd (box_len p); ret (BNum n))
    | BFinish i => with_box i (fun p => n <- on_snd (box_finish p); ret (BNum n))
    | BWrite i l => with_box i (fun p => on_snd (box_write p l) ;; ret BDone)
    | BMarker i => with_box i (fun p => ret (BMark (box_marker p)))
    | BDrop i => with_box i (fun p => kill_box i ;; on_snd (box_drop p) ;; ret BDone)
    end.

  (** A history: after a caught panic the next call is made; undefined behaviour and aborts end it. *)
  Fixpoint brun (ops : list (bop T)) (s : Bst) : list (res obs) * Bst :=
    match ops with
    | [] => ([], s)
    | op :: ops =>
        match bexec op s with
        | (Ret a, s') => let '(outs, s'') := brun ops s' in (Ret a :: outs, s'')
        | (Panic p, s') => let '(outs, s'') := brun ops s' in (Panic p :: outs, s'')
        | (r, s') => ([r], s')
        end
    end.
End box_run.
