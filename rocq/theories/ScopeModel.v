(** Model of src/scope.rs: the current scope of an environment, and allocation markers. *)
From Verif Require Export Base Count.

(** A [&mut dyn Scope]: the address of the scope and its method table. *)
Record fat := Fat { f_data : N; f_vtable : N }.

(** A value of a type [S: Scope]: its memory in 8-byte words and the method table of [S].
    Simplification: the size of [S] is a multiple of eight bytes. *)
Record scopev := ScopeV { sv_words : list N; sv_vtable : N }.
(** [size_of::<S>()] (src/scope.rs 127-149). *)
Definition sv_size (s : scopev) : N := 8 * llen (sv_words s).

(** Code run in an environment: looking at the current scope (156-158, 176-178), [spawn] (127-149) with
    the value returned by [scope_init] ([None]: it panics) and a body, panicking, and catching panics. *)
Inductive prog :=
  | PDone | PPanic
  | PLook (k : prog)
  | PSpawn (s : option scopev) (body k : prog)
  | PCatch (body k : prog).

(** State: [Env::cur] (13-15), the next free address, and what was seen (the address at which the
    innermost spawned scope lives is recorded beside it). *)
Record senv := SEnv { se_cur : fat; se_next : N; se_seen : list fat }.

(** How a piece of code ends; panics unwind through [spawn] (src/scope.rs 127-149). *)
Inductive sres := SRet | SPanic.

(** Write [Env::cur] (src/scope.rs 13-15). *)
Definition set_cur (f : fat) (e : senv) : senv := SEnv f (se_next e) (se_seen e).
(** The new scope is a local variable of [spawn]: it has an address of its own. *)
Definition place (e : senv) : N * senv := (se_next e, SEnv (se_cur e) (se_next e + 1) (se_seen e)).

(** src/scope.rs 140: [transmute_copy::<_, &mut dyn Scope>(&new_scope)] copies the first sixteen bytes of
    the scope value itself; the library function panics when the source is smaller than that. *)
Definition transmute_copy (s : scopev) : option fat :=
  match sv_words s with w0 :: w1 :: _ => Some (Fat w0 w1) | _ => None end.

(** src/scope.rs 120-124 *)
Definition env_new (scope : fat) : senv := SEnv scope 0 [].

(** Running code in an environment (src/scope.rs 127-158, 176-185). *)
Fixpoint sexec (p : prog) (e : senv) : sres * senv :=
  match p with
  | PDone => (SRet, e)
  | PPanic => (SPanic, e)
  (* 156-158: [transmute_copy(&self.cur)] *)
  | PLook k => sexec k (SEnv (se_cur e) (se_next e) (se_seen e ++ [se_cur e]))
  | PSpawn s body k =>
      (* 137 *)
      let prev := se_cur e in
      match s with
      (* 138 *)
      | None => (SPanic, e)
      | Some s =>
          let '(a, e) := place e in
          match transmute_copy s with
          | None => (SPanic, e)
          | Some f =>
              (* 140-142; a panic of the body leaves by unwinding *)
              match sexec body (set_cur f e) with
              | (SPanic, e) => (SPanic, e)
              (* 145-146 *)
              | (SRet, e) => sexec k (set_cur prev e)
              end
          end
      end
  | PCatch body k => let '(_, e) := sexec body e in sexec k e
  end.

(** *** Markers *)
(** A [&'static str]: where it is and what it says. *)
Record sstr := SStr { st_ptr : N; st_text : list N }.
(** src/scope.rs 19-33 *)
Inductive amarker := MNone | MType (s : sstr).
(** src/scope.rs 64-68 *)
Record aselector := ASel { as_marker : amarker; as_ty : sstr }.

(** src/scope.rs 35-43 *)
Definition marker_eqb (a b : amarker) : bool :=
  match a, b with
  | MNone, MNone => true
  | MType x, MType y => st_ptr x =? st_ptr y
  | _, _ => false
  end.
(** src/scope.rs 45-52: what is fed to the hasher. *)
Definition marker_hash (a : amarker) : list N := match a with MNone => [] | MType x => [st_ptr x] end.
(** src/scope.rs 70-74 *)
Definition selector_eqb (a b : aselector) : bool :=
  marker_eqb (as_marker a) (as_marker b) && (st_ptr (as_ty a) =? st_ptr (as_ty b)).
(** src/scope.rs 76-81 *)
Definition selector_hash (a : aselector) : list N := marker_hash (as_marker a) ++ [st_ptr (as_ty a)].

Section names.
  (** [type_name::<T>()] at a given place of the program.  The text depends on the type only; the
      language fixes neither that the string is at the same address everywhere nor that different
      types have different strings. *)
  Context (type_name : N -> N -> sstr).
  (** src/scope.rs 57-59 *)
  Definition marker_new (t site : N) : amarker := MType (type_name t site).
  (** src/scope.rs 85-90 *)
  Definition selector_new (t site : N) : aselector := ASel MNone (type_name t site).
  (** src/scope.rs 93-98 *)
  Definition selector_with_marker (m : amarker) (t site : N) : aselector := ASel m (type_name t site).
End names.
