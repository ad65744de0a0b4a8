(** Outcomes, the state monad and machine arithmetic shared by all models.

    Rust's [usize] is [N]; the bounds are those of a 64-bit target.  Every [+], [-], [*] on
    [usize] in the source becomes [uadd], [usub] or [umul] below, which panic when overflow
    checks are on (debug profile) and wrap when they are off (release profile). *)
From stdpp Require Export prelude list gmap.
From Coq Require Export NArith ZArith Lia.

Global Open Scope N_scope.

(** [usize::MAX] of a 64-bit target. *)
Definition usize_max : N := 18446744073709551615.
(** [isize::MAX] of a 64-bit target. *)
Definition isize_max : N := 9223372036854775807.
(** The number of values of [usize]. *)
Definition two64 : N := 18446744073709551616.

(** Reasons for undefined behaviour. *)
Inductive ub :=
| UninitRead        (* reading a value out of uninitialised memory *)
| UninitDrop        (* running a destructor on uninitialised memory *)
| OutOfBounds       (* access outside of an allocation *)
| Dangling_access   (* access through, or release of, a pointer that owns no memory *)
| UseAfterFree      (* access to, or release of, memory already released *)
| BadLayout         (* release/resize with another layout or allocator, or invalid new size *)
| ZeroSizeAlloc     (* request of zero bytes from the global-allocator interface *)
| Precond           (* precondition of an unsafe library function violated *)
| Overlap           (* copy_nonoverlapping with overlapping ranges *)
| UseAfterMove.     (* reading a value that has already been moved out *)

(** Kinds of panics. *)
Inductive panic :=
| PArith            (* arithmetic overflow check *)
| PDebugAssert      (* debug_assert *)
| PAssert           (* assert! *)
| PIndex            (* slice index / range check *)
| PUnwrap           (* unwrap of Err(alloc failure) *)
| PCapacity         (* capacity overflow *)
| PNoEnv            (* no environment installed *)
| PUser             (* callback supplied by the user (closure, clone) *)
| PDrop             (* destructor of an element *)
| PLen              (* slices of different lengths *)
| PRefcount.        (* reference count limit *)

Inductive res (A : Type) :=
| Ret (a : A)
| Panic (p : panic)
| Abort             (* panic while unwinding *)
| UB (u : ub).
Arguments Ret {A} a.
Arguments Panic {A} p.
Arguments Abort {A}.
Arguments UB {A} u.

(** Computations over a state.  The state reached is visible on every outcome. *)
Definition M (S A : Type) := S -> res A * S.

(** Return a value (no counterpart in /repo/src, as for the rest of this file where no line is
    given). *)
Definition ret {S A} (a : A) : M S A := fun s => (Ret a, s).
(** Panic. *)
Definition throw {S A} (p : panic) : M S A := fun s => (Panic p, s).
(** Undefined behaviour. *)
Definition undef {S A} (u : ub) : M S A := fun s => (UB u, s).

(** One computation after another; anything but a value ends both. *)
Definition bind {S A B} (m : M S A) (k : A -> M S B) : M S B := fun s =>
  match m s with
  | (Ret a, s') => k a s'
  | (Panic p, s') => (Panic p, s')
  | (Abort, s') => (Abort, s')
  | (UB u, s') => (UB u, s')
  end.

Declare Scope m_scope.
Delimit Scope m_scope with M.
Notation "x <- m ; k" := (bind m (fun x => k))
  (at level 100, m at next level, k at level 200, right associativity) : m_scope.
Notation "m ;; k" := (bind m (fun _ => k))
  (at level 100, k at level 200, right associativity) : m_scope.
Global Open Scope m_scope.

(** [on_unwind m c]: run [m]; when it panics run the cleanup [c] (values that Rust drops while
    unwinding) and keep panicking; a panic inside the cleanup aborts the process. *)
Definition on_unwind {S A} (m : M S A) (c : M S unit) : M S A := fun s =>
  match m s with
  | (Panic p, s') =>
      match c s' with
      | (Ret _, s'') => (Panic p, s'')
      | (Panic _, s'') => (Abort, s'')
      | (Abort, s'') => (Abort, s'')
      | (UB u, s'') => (UB u, s'')
      end
  | r => r
  end.

(** [finally m c]: run [m], then the cleanup [c] whether or not [m] panicked. *)
Definition finally {S A} (m : M S A) (c : M S unit) : M S A :=
  a <- on_unwind m c; c ;; ret a.

(** Access to the two components of a state. *)
Definition on_snd {V W A} (m : M W A) : M (V * W) A := fun s =>
  let '(r, w) := m (snd s) in (r, (fst s, w)).
(** Read the first component. *)
Definition get_fst {V W} : M (V * W) V := fun s => (Ret (fst s), s).
(** Write the first component. *)
Definition put_fst {V W} (v : V) : M (V * W) unit := fun s => (Ret tt, (v, snd s)).

(** A local variable [v]: run [m] with it; when [m] panics, [c] drops the local. *)
Definition with_local {V W A} (v : V) (m : M (V * W) A) (c : M (V * W) unit) : M W (A * V) :=
  fun w =>
    let '(r, (v', w')) := on_unwind m c (v, w) in
    (match r with
     | Ret a => Ret (a, v') | Panic p => Panic p | Abort => Abort | UB u => UB u
     end, w').

(** Build profile: [e_checks] = overflow checks and debug assertions on; [e_strict] = library
    preconditions without hardware effect count as undefined behaviour. *)
Class Profile := { e_checks : bool; e_strict : bool }.

Section arith.
  Context `{!Profile} {S : Type}.

  (** [a + b] on [usize]. *)
  Definition uadd (a b : N) : M S N :=
    if a + b <=? usize_max then ret (a + b)
    else if e_checks then throw PArith else ret (a + b - two64).
  (** [a - b] on [usize]. *)
  Definition usub (a b : N) : M S N :=
    if b <=? a then ret (a - b)
    else if e_checks then throw PArith else ret (a + two64 - b).
  (** [a * b] on [usize]. *)
  Definition umul (a b : N) : M S N :=
    if a * b <=? usize_max then ret (a * b)
    else if e_checks then throw PArith else ret ((a * b) mod two64).

  (** [debug_assert!(c)] *)
  Definition debug_assert (c : bool) : M S unit :=
    if e_checks then (if c then ret tt else throw PDebugAssert) else ret tt.
  (** [assert!(c)] *)
  Definition assert (c : bool) : M S unit := if c then ret tt else throw PAssert.
  (** precondition of an unsafe library function, checked only by the strict profile *)
  Definition assume (c : bool) (u : ub) : M S unit :=
    if e_strict && negb c then undef u else ret tt.
End arith.

(** Length of a list as a machine number, and list access by machine numbers. *)
Notation llen l := (N.of_nat (length l)).

Global Arguments N.add : simpl never.
Global Arguments N.sub : simpl never.
Global Arguments N.mul : simpl never.
Global Arguments N.div : simpl never.
Global Arguments N.modulo : simpl never.
Global Arguments N.max : simpl never.
Global Arguments N.leb : simpl never.
Global Arguments N.ltb : simpl never.
Global Arguments N.eqb : simpl never.
Global Arguments N.of_nat : simpl never.
Global Arguments N.to_nat : simpl never.
Global Arguments bind : simpl never.
Global Arguments on_unwind : simpl never.
Global Arguments on_snd : simpl never.
