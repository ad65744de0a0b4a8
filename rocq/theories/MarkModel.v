(** Constructors of [String] that take a marker or can fail.  A string is its vector of bytes. *)
From Verif Require Import UtfModel.
From Verif Require Export VecModel StrModel.

Section mark_model.
  Context `{!Env}.
  Local Existing Instance u8.
  Notation W := (world N).

  (** src/string.rs 27-32: [try_with_capacity]. *)
  Definition str_try_with_capacity (c : N) : M W (result vec aerr) :=
    vec_try_with_capacity c.
  (** src/string.rs 34-39: [with_marker]. *)
  Definition str_with_marker (m : marker) : M W vec := vec_with_marker m.
  (** src/string.rs 41-46: [with_capacity_and_marker]. *)
  Definition str_with_capacity_and_marker (c : N) (m : marker) : M W vec :=
    vec_with_capacity_and_marker c m.
  (** src/string.rs 48-56: [try_with_capacity_and_marker]. *)
  Definition str_try_with_capacity_and_marker (c : N) (m : marker) : M W (result vec aerr) :=
    vec_try_with_capacity_and_marker c m.
End mark_model.
