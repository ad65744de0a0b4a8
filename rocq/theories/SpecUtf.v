(** Unicode scalar values and the encoding forms UTF-8 and UTF-16, stated arithmetically (The
    Unicode Standard, definitions D76, D91, D92 and tables 3-5, 3-6).  Independent of the model. *)
From Verif Require Import Base.

(** D76: every code point except the surrogates. *)
Definition scalar (c : N) : Prop := c < 55296 \/ (57343 < c /\ c < 1114112).

(** [utf8 c bs]: the bytes [bs] encode the scalar value [c]. *)
Inductive utf8 : N -> list N -> Prop :=
| utf8_1 a : a < 128 -> utf8 a [a]
| utf8_2 a b : 128 <= a * 64 + b -> a < 32 -> b < 64 -> utf8 (a * 64 + b) [192 + a; 128 + b]
| utf8_3 a b c n : n = a * 4096 + b * 64 + c -> 2048 <= n -> scalar n ->
    a < 16 -> b < 64 -> c < 64 -> utf8 n [224 + a; 128 + b; 128 + c]
| utf8_4 a b c d n : n = a * 262144 + b * 4096 + c * 64 + d -> 65536 <= n -> scalar n ->
    a < 8 -> b < 64 -> c < 64 -> d < 64 -> utf8 n [240 + a; 128 + b; 128 + c; 128 + d].

(** [text cs bs]: the bytes [bs] encode the sequence of scalar values [cs]. *)
Inductive text : list N -> list N -> Prop :=
| text_nil : text [] []
| text_cons c cs bs bss : utf8 c bs -> text cs bss -> text (c :: cs) (bs ++ bss).

(** Well-formed UTF-8. *)
Definition wellformed (bs : list N) : Prop := exists cs, text cs bs.

(** Number of bytes of a scalar value and of a text. *)
Definition ulen (c : N) : N :=
  if c <? 128 then 1 else if c <? 2048 then 2 else if c <? 65536 then 3 else 4.
Definition tlen (cs : list N) : N := foldr (fun c n => ulen c + n) 0 cs.

(** [boundary cs i]: the byte index [i] lies between two characters (or at an end). *)
Definition boundary (cs : list N) (i : N) : Prop := exists xs ys, cs = xs ++ ys /\ i = tlen xs.

(** [utf16 c us]: the 16-bit units [us] encode [c]. *)
Inductive utf16 : N -> list N -> Prop :=
| utf16_1 a : a < 65536 -> scalar a -> utf16 a [a]
| utf16_2 a b : a < 1024 -> b < 1024 ->
    utf16 (65536 + a * 1024 + b) [55296 + a; 56320 + b].
Inductive text16 : list N -> list N -> Prop :=
| text16_nil : text16 [] []
| text16_cons c cs us uss : utf16 c us -> text16 cs uss -> text16 (c :: cs) (us ++ uss).

(** Lexicographic order of code points. *)
Inductive code_order : list N -> list N -> comparison -> Prop :=
| co_nil : code_order [] [] Eq
| co_short y ys : code_order [] (y :: ys) Lt
| co_long x xs : code_order (x :: xs) [] Gt
| co_lt x y xs ys : x < y -> code_order (x :: xs) (y :: ys) Lt
| co_gt x y xs ys : y < x -> code_order (x :: xs) (y :: ys) Gt
| co_eq x xs ys o : code_order xs ys o -> code_order (x :: xs) (x :: ys) o.
