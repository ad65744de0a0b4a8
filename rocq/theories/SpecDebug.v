(** What formatting is to show, independent of the model: the text of a list of elements, and the
    literal of a text (Rust reference, string literals; documentation of [str]'s [Debug]). *)
From Verif Require Import Base SpecUtf.

(** Entries between [[] and []], separated by a comma and a space. *)
Fixpoint joined (l : list (list N)) : list N :=
  match l with
  | [] => []
  | [e] => e
  | e :: l => e ++ [44; 32] ++ joined l
  end.
Definition listing {T} (dbg : T -> list N) (xs : list T) : list N := [91] ++ joined (dbg <$> xs) ++ [93].

(** Characters with an escape of their own: NUL, tab, newline, carriage return, the quote and the backslash. *)
Definition specials : list (N * N) := [(0, 48); (9, 116); (10, 110); (13, 114); (34, 34); (92, 92)].
(** Lower case hexadecimal digits. *)
Fixpoint hex_digits (fuel : nat) (c : N) : list N :=
  match fuel with
  | O => []
  | S f => (if c <? 16 then [] else hex_digits f (c / 16)) ++
           [if c mod 16 <? 10 then 48 + c mod 16 else 87 + c mod 16]
  end.
Section literal.
  (** Which characters are shown as they are is a matter of tables. *)
  Context (printable : N -> bool).
  Inductive escaped : N -> list N -> Prop :=
  | esc_special c l : In (c, l) specials -> escaped c [92; l]
  | esc_plain c e : ~ In c (fst <$> specials) -> printable c = true -> utf8 c e -> escaped c e
  | esc_code c : ~ In c (fst <$> specials) -> printable c = false ->
      escaped c ([92; 117; 123] ++ hex_digits 8 c ++ [125]).
  Definition literal (cs : list N) (out : list N) : Prop :=
    exists es, Forall2 escaped cs es /\ out = [34] ++ concat es ++ [34].
End literal.
