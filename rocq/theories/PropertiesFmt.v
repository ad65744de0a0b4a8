(** Properties C90-C91: formatted writing, mutable slices of strings. *)
From Verif Require Import FmtFacts.

(** Full statement: [write!] into a string appends the formatted text.  Missing: in the strict reading,
    non-ASCII characters written one by one (see [C90_char_refuted]).  An error or panic of the formatted
    value, or a refused request for memory, leaves what was written before. *)
Theorem C90_write_partial : forall (EN : Env) v (w : world N) cs l,
  has_text v w cs -> Forall part_ok l -> tlen cs + tlen (all_chars l) <= isize_max ->
  exists r v' w', str_write_fmt (to_fpart <$> l) (v, w) = (r, (v', w')) /\
  ((exists cs' bs, written refuses cs l r cs' /\ vec_as_slice v' w' = (Ret bs, w') /\ text cs' bs /\
      delete_ptr (vdata v') (heap w') = delete_ptr (vdata v) (heap w)) \/
   (e_strict = true /\ r = UB UninitRead /\
    exists pre c post, l = pre ++ Char c :: post /\ Forall writes pre /\ 128 <= c)).
Proof. exact p_C90_write_partial. Qed.
Print Assumptions C90_write_partial.

Example C90_write_ex : @has_text env_debug (fst t1) (snd t1) [97; 233; 122] /\
  Forall part_ok [Text [8364]; Char 65; Fail; Text [66]] /\
  (let '(r, (v, w)) := str_write_fmt (EN:=env_debug) (to_fpart <$> [Text [8364]; Char 65; Fail; Text [66]]) t1 in
   (r, fst (vec_as_slice v w))) = (Ret (Err tt), Ret [97; 195; 169; 122; 226; 130; 172; 65]).
Proof. exact x_C90_write_ex. Qed.

(** When the allocator does not refuse and nothing fails, everything is written and the result is [Ok]. *)
Theorem C90_all : forall (EN : Env) v (w : world N) cs l,
  has_text v w cs -> Forall part_ok l -> tlen cs + tlen (all_chars l) <= isize_max ->
  ~ refuses -> Forall writes l -> (e_strict = true -> forall c, Char c ∈ l -> c < 128) ->
  exists v' w' bs, str_write_fmt (to_fpart <$> l) (v, w) = (Ret (Ok tt), (v', w')) /\
    vec_as_slice v' w' = (Ret bs, w') /\ text (cs ++ all_chars l) bs /\
    delete_ptr (vdata v') (heap w') = delete_ptr (vdata v) (heap w).
Proof. exact p_C90_all. Qed.
Print Assumptions C90_all.

Example C90_all_ex : @has_text env_debug (fst t1) (snd t1) [97; 233; 122] /\
  Forall writes [Text [8364]; Char 65] /\ ~ @refuses env_debug /\
  fst (str_write_fmt (EN:=env_debug) (to_fpart <$> [Text [8364]; Char 65]) t1) = Ret (Ok tt).
Proof. exact x_C90_all_ex. Qed.

Theorem C90_char_refuted : exists (EN : Env) v (w : world N) cs l,
  has_text v w cs /\ Forall part_ok l /\ Forall writes l /\ tlen cs + tlen (all_chars l) <= isize_max /\
  fst (str_write_fmt (to_fpart <$> l) (v, w)) = UB UninitRead.
Proof. exact p_C90_char_refuted. Qed.
Print Assumptions C90_char_refuted.

(** Changing the ASCII letters of a mutable slice to upper case: exactly the characters of the slice
    change, in place. *)
Theorem C91_upper : forall (EN : Env) v (w : world N) xs ys zs lo hi,
  has_text v w (xs ++ ys ++ zs) -> limit_arg lo -> limit_arg hi ->
  from_ lo = tlen xs -> to_ (tlen (xs ++ ys ++ zs)) hi = tlen (xs ++ ys) ->
  exists w' bs, str_index_map (to_bound lo) (to_bound hi) ascii_upper (v, w) = (Ret tt, (v, w')) /\
    vec_as_slice v w' = (Ret bs, w') /\ text (xs ++ (upper <$> ys) ++ zs) bs /\
    delete_ptr (vdata v) (heap w') = delete_ptr (vdata v) (heap w).
Proof. exact p_C91_upper. Qed.
Print Assumptions C91_upper.

Example C91_upper_ex : @has_text env_debug (fst t1) (snd t1) ([97] ++ [233; 122] ++ []) /\
  from_ (LIncl 1) = tlen [97] /\ to_ (tlen ([97] ++ [233; 122] ++ [])) LOpen = tlen ([97] ++ [233; 122]) /\
  (let '(r, (v, w)) := str_index_map (Included 1) Unbounded ascii_upper t1 in
   (r, fst (vec_as_slice v w))) = (Ret tt, Ret [97; 195; 169; 90]).
Proof. exact x_C91_upper_ex. Qed.

(** And to lower case. *)
Theorem C91_lower : forall (EN : Env) v (w : world N) xs ys zs lo hi,
  has_text v w (xs ++ ys ++ zs) -> limit_arg lo -> limit_arg hi ->
  from_ lo = tlen xs -> to_ (tlen (xs ++ ys ++ zs)) hi = tlen (xs ++ ys) ->
  exists w' bs, str_index_map (to_bound lo) (to_bound hi) ascii_lower (v, w) = (Ret tt, (v, w')) /\
    vec_as_slice v w' = (Ret bs, w') /\ text (xs ++ (lower <$> ys) ++ zs) bs /\
    delete_ptr (vdata v) (heap w') = delete_ptr (vdata v) (heap w).
Proof. exact p_C91_lower. Qed.
Print Assumptions C91_lower.

Example C91_lower_ex : @has_text env_debug (fst t1) (snd t1) ([97] ++ [233; 122] ++ []) /\
  from_ LOpen = tlen [] /\ to_ (tlen ([] ++ [97] ++ [233; 122])) (LIncl 0) = tlen ([] ++ [97]).
Proof. exact x_C91_lower_ex. Qed.

(** Any other range panics and changes nothing. *)
Theorem C91_bad : forall (EN : Env) v (w : world N) cs lo hi,
  has_text v w cs -> limit_arg lo -> limit_arg hi ->
  ~ (from_ lo <= to_ (tlen cs) hi /\ boundary cs (from_ lo) /\ boundary cs (to_ (tlen cs) hi)) ->
  str_index_map (to_bound lo) (to_bound hi) ascii_upper (v, w) = (Panic PIndex, (v, w)).
Proof. exact p_C91_bad. Qed.
Print Assumptions C91_bad.

Example C91_bad_ex : @has_text env_debug (fst t1) (snd t1) [97; 233; 122] /\ limit_arg (LExcl 2) /\
  ~ boundary [97; 233; 122] 2 /\
  fst (str_index_map Unbounded (Excluded 2) ascii_upper t1) = Panic PIndex.
Proof. exact x_C91_bad_ex. Qed.
