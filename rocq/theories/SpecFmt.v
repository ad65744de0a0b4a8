(** Specification of formatted writing.  Independent of the model. *)
From Verif Require Import Base PtrModel SpecUtf.

(** The parts of a formatted text, by their characters. *)
Inductive part := Text (ds : list N) | Char (c : N) | Fail | Crash.
Definition part_chars (p : part) : list N := match p with Text ds => ds | Char c => [c] | _ => [] end.
Definition part_ok (p : part) : Prop := Forall scalar (part_chars p).
Definition writes (p : part) : Prop := match p with Text _ | Char _ => True | _ => False end.
Definition all_chars (l : list part) : list N := concat (part_chars <$> l).

(** [written may_refuse cs l r cs']: writing the parts [l] after [cs] may end in [r] and leave [cs']. *)
Inductive written (may_refuse : Prop) (cs : list N) : list part -> res (result unit unit) -> list N -> Prop :=
| wr_all l : Forall writes l -> written may_refuse cs l (Ret (Ok tt)) (cs ++ all_chars l)
| wr_fail l post : Forall writes l -> written may_refuse cs (l ++ Fail :: post) (Ret (Err tt)) (cs ++ all_chars l)
| wr_crash l post : Forall writes l -> written may_refuse cs (l ++ Crash :: post) (Panic PUser) (cs ++ all_chars l)
| wr_refused l p post : may_refuse -> Forall writes l -> writes p ->
    written may_refuse cs (l ++ p :: post) (Panic PUnwrap) (cs ++ all_chars l).
