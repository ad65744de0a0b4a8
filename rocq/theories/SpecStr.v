(** Specification of strings as sequences of Unicode scalar values.  Independent of the model: it
    mentions only sequences, the encoding of SpecUtf.v, the calls a user can make and what they
    observe. *)
From Verif Require Import Base PtrModel SpecUtf SpecVec.

(** The ends of a range argument. *)
Inductive limit_ := LOpen | LIncl (n : N) | LExcl (n : N).

(** The calls of a history.  Texts are given by their characters.  [TRetain f]: [f] is asked about
    a character, knowing those it saw before; [None] is a panic.  [TExtendChars] and [TExtendStrs]:
    [None] is a panic of the iterator.  [TExtendStrings] extends by strings made on demand.
    [TSplitOff] drops the returned string.  [TMutVec op] is [s.as_mut_vec()] followed by a call on
    the vector. *)
Inductive top :=
| TPush (c : N) | TPop | TPushStr (ds : list N) | TClear
| TInsert (i c : N) | TInsertStr (i : N) (ds : list N) | TRemove (i : N) | TTruncate (n : N)
| TRetain (f : list N -> N -> option bool)
| TSlice (lo hi : limit_) | TAsStr | TLen
| TUpper | TLower
| TReserve (n : N) | TReserveExact (n : N) | TTryReserve (n : N) | TTryReserveExact (n : N)
| TShrinkTo (m : N) | TShrinkToFit
| TExtendChars (it : list (option N)) (hint : N)
| TExtendStrs (it : list (option (list N)))
| TExtendStrings (it : list (list N))
| TSplitOff (i : N)
| TSetScope (s : N)
| TMutVec (op : vop N).

(** What the type system promises: characters are scalar values, numbers are machine words. *)
Definition limit_arg (l : limit_) : Prop :=
  match l with LOpen => True | LIncl n | LExcl n => n <= usize_max end.
Definition args_ok (op : top) : Prop :=
  match op with
  | TPush c => scalar c
  | TInsert i c => i <= usize_max /\ scalar c
  | TPushStr ds => Forall scalar ds
  | TInsertStr i ds => i <= usize_max /\ Forall scalar ds
  | TRemove i | TTruncate i | TSplitOff i => i <= usize_max
  | TSlice lo hi => limit_arg lo /\ limit_arg hi
  | TExtendChars it _ => forall c, Some c ∈ it -> scalar c
  | TExtendStrs it => forall ds, Some ds ∈ it -> Forall scalar ds
  | TExtendStrings it => Forall (Forall scalar) it
  | _ => True
  end.

(** [kept f seen cs ks ok]: asking [f] about the characters [cs] in order, after [seen], accepts
    [ks]; [ok] says that [f] never panicked. *)
Inductive kept (f : list N -> N -> option bool) : list N -> list N -> list N -> bool -> Prop :=
| kept_end seen : kept f seen [] [] true
| kept_yes seen c cs ks ok : f seen c = Some true -> kept f (seen ++ [c]) cs ks ok ->
    kept f seen (c :: cs) (c :: ks) ok
| kept_no seen c cs ks ok : f seen c = Some false -> kept f (seen ++ [c]) cs ks ok ->
    kept f seen (c :: cs) ks ok
| kept_panic seen c cs : f seen c = None -> kept f seen (c :: cs) [] false.

(** ASCII letters in upper and lower case. *)
Definition upper (c : N) : N := if (97 <=? c) && (c <=? 122) then c - 32 else c.
Definition lower (c : N) : N := if (65 <=? c) && (c <=? 90) then c + 32 else c.

(** The byte range [from, to) that [lo] and [hi] denote in a text of [n] bytes. *)
Definition from_ (lo : limit_) : N := match lo with LOpen => 0 | LIncl i => i | LExcl i => i + 1 end.
Definition to_ (n : N) (hi : limit_) : N :=
  match hi with LOpen => n | LIncl i => i + 1 | LExcl i => i end.

Section spec.
  (** [may_refuse]: the allocator may refuse some request. *)
  Context (may_refuse : Prop).
  Implicit Types (xs ys cs ds : list N).

  (** [tspec cs op out cs']: with contents [cs], the call [op] may end in [out] and leave [cs']. *)
  Inductive tspec : list N -> top -> res (vret N) -> list N -> Prop :=
  | t_push cs c : tspec cs (TPush c) (Ret RUnit) (cs ++ [c])
  | t_push_refused cs c : may_refuse -> tspec cs (TPush c) (Panic PUnwrap) cs
  | t_pop cs c : tspec (cs ++ [c]) TPop (Ret (ROpt (Some c))) cs
  | t_pop_empty : tspec [] TPop (Ret (ROpt None)) []
  | t_push_str cs ds : tspec cs (TPushStr ds) (Ret RUnit) (cs ++ ds)
  | t_push_str_refused cs ds : may_refuse -> tspec cs (TPushStr ds) (Panic PUnwrap) cs
  | t_clear cs : tspec cs TClear (Ret RUnit) []
  | t_insert xs ys i c : i = tlen xs -> tspec (xs ++ ys) (TInsert i c) (Ret RUnit) (xs ++ c :: ys)
  | t_insert_bad cs i c : ~ boundary cs i -> tspec cs (TInsert i c) (Panic PAssert) cs
  | t_insert_refused cs i c : may_refuse -> boundary cs i -> tspec cs (TInsert i c) (Panic PUnwrap) cs
  | t_insert_str xs ys i ds : i = tlen xs ->
      tspec (xs ++ ys) (TInsertStr i ds) (Ret RUnit) (xs ++ ds ++ ys)
  | t_insert_str_bad cs i ds : ~ boundary cs i -> tspec cs (TInsertStr i ds) (Panic PAssert) cs
  | t_insert_str_refused cs i ds : may_refuse -> boundary cs i ->
      tspec cs (TInsertStr i ds) (Panic PUnwrap) cs
  | t_remove xs c ys i : i = tlen xs -> tspec (xs ++ c :: ys) (TRemove i) (Ret (RVal c)) (xs ++ ys)
  | t_remove_bad cs i : ~ boundary cs i -> tspec cs (TRemove i) (Panic PIndex) cs
  | t_remove_end cs i : i = tlen cs -> tspec cs (TRemove i) (Panic PAssert) cs
  | t_truncate xs ys n : n = tlen xs -> tspec (xs ++ ys) (TTruncate n) (Ret RUnit) xs
  | t_truncate_long cs n : tlen cs <= n -> tspec cs (TTruncate n) (Ret RUnit) cs
  | t_truncate_bad cs n : n < tlen cs -> ~ boundary cs n -> tspec cs (TTruncate n) (Panic PAssert) cs
  | t_retain cs f ks : kept f [] cs ks true -> tspec cs (TRetain f) (Ret RUnit) ks
  | t_retain_panic cs f ks : kept f [] cs ks false -> tspec cs (TRetain f) (Panic PUser) ks
  | t_slice xs ys zs lo hi bs cs : cs = xs ++ ys ++ zs -> from_ lo = tlen xs ->
      to_ (tlen cs) hi = tlen (xs ++ ys) -> text ys bs -> tspec cs (TSlice lo hi) (Ret (RList bs)) cs
  | t_slice_bad cs lo hi :
      ~ (from_ lo <= to_ (tlen cs) hi /\ boundary cs (from_ lo) /\ boundary cs (to_ (tlen cs) hi)) ->
      tspec cs (TSlice lo hi) (Panic PIndex) cs
  | t_as_str cs bs : text cs bs -> tspec cs TAsStr (Ret (RList bs)) cs
  | t_len cs : tspec cs TLen (Ret (RNum (tlen cs))) cs
  | t_upper cs : tspec cs TUpper (Ret RUnit) (upper <$> cs)
  | t_lower cs : tspec cs TLower (Ret RUnit) (lower <$> cs)
  | t_reserve cs n : tspec cs (TReserve n) (Ret RUnit) cs
  | t_reserve_refused cs n : may_refuse -> tspec cs (TReserve n) (Panic PUnwrap) cs
  | t_reserve_exact cs n : tspec cs (TReserveExact n) (Ret RUnit) cs
  | t_reserve_exact_refused cs n : may_refuse -> tspec cs (TReserveExact n) (Panic PUnwrap) cs
  | t_try_reserve cs n : tspec cs (TTryReserve n) (Ret (RResult (Ok tt))) cs
  | t_try_reserve_refused cs n : may_refuse ->
      tspec cs (TTryReserve n) (Ret (RResult (Err AllocErr))) cs
  | t_try_reserve_exact cs n : tspec cs (TTryReserveExact n) (Ret (RResult (Ok tt))) cs
  | t_try_reserve_exact_refused cs n : may_refuse ->
      tspec cs (TTryReserveExact n) (Ret (RResult (Err AllocErr))) cs
  | t_shrink_to cs m : tspec cs (TShrinkTo m) (Ret RUnit) cs
  | t_shrink_to_refused cs m : may_refuse -> tspec cs (TShrinkTo m) (Panic PUnwrap) cs
  | t_shrink_to_fit cs : tspec cs TShrinkToFit (Ret RUnit) cs
  | t_shrink_to_fit_refused cs : may_refuse -> tspec cs TShrinkToFit (Panic PUnwrap) cs
  | t_chars cs ds h : tspec cs (TExtendChars (Some <$> ds) h) (Ret RUnit) (cs ++ ds)
  | t_chars_panic cs ds it h :
      tspec cs (TExtendChars ((Some <$> ds) ++ None :: it) h) (Panic PUser) (cs ++ ds)
  | t_chars_no_room cs it h : may_refuse -> tspec cs (TExtendChars it h) (Panic PUnwrap) cs
  | t_chars_refused cs ds c it h : may_refuse ->
      tspec cs (TExtendChars ((Some <$> ds) ++ Some c :: it) h) (Panic PUnwrap) (cs ++ ds)
  | t_strs cs dss : tspec cs (TExtendStrs (Some <$> dss)) (Ret RUnit) (cs ++ concat dss)
  | t_strs_panic cs dss it :
      tspec cs (TExtendStrs ((Some <$> dss) ++ None :: it)) (Panic PUser) (cs ++ concat dss)
  | t_strs_refused cs dss ds it : may_refuse ->
      tspec cs (TExtendStrs ((Some <$> dss) ++ Some ds :: it)) (Panic PUnwrap) (cs ++ concat dss)
  | t_strings cs dss : tspec cs (TExtendStrings dss) (Ret RUnit) (cs ++ concat dss)
  | t_strings_refused cs dss ds it : may_refuse ->
      tspec cs (TExtendStrings (dss ++ ds :: it)) (Panic PUnwrap) (cs ++ concat dss)
  (** [split_off] as it is in the code: the string keeps everything (see C46). *)
  | t_split_off cs i : boundary cs i -> tspec cs (TSplitOff i) (Ret RUnit) cs
  | t_split_off_refused cs i : may_refuse -> boundary cs i ->
      tspec cs (TSplitOff i) (Panic PUnwrap) cs
  | t_split_off_bad cs i : ~ boundary cs i -> tspec cs (TSplitOff i) (Panic PAssert) cs
  | t_set_scope cs s : tspec cs (TSetScope s) (Ret RUnit) cs.

  (** A whole history: the panics of single calls are caught and the history goes on. *)
  Inductive ttrace : list N -> list top -> list (res (vret N)) -> list N -> Prop :=
  | tt_nil cs : ttrace cs [] [] cs
  | tt_cons cs op ops o outs cs1 cs2 :
      tspec cs op o cs1 -> ttrace cs1 ops outs cs2 -> ttrace cs (op :: ops) (o :: outs) cs2.
End spec.

(** Upper bound for the number of bytes a call asks room for. *)
Definition tdemand (op : top) : N :=
  match op with
  | TPush c | TInsert _ c => ulen c
  | TPushStr ds | TInsertStr _ ds => tlen ds
  | TExtendChars it h => 4 * llen it + h
  | TExtendStrs it => foldr (fun o n => from_option tlen 0 o + n) 0 it
  | TExtendStrings it => foldr (fun ds n => tlen ds + n) 0 it
  | TReserve n | TReserveExact n | TTryReserve n | TTryReserveExact n => n
  | _ => 0
  end.
Definition total_tdemand (ops : list top) : N := foldr (fun op n => tdemand op + n) 0 ops.

(** The calls that are undefined, and how: making integers out of uninitialised memory (a language
    rule, checked in the strict reading) and shrinking away all memory of an empty string. *)
Definition tunsound (strict : bool) (cs : list N) (op : top) (u : ub) : Prop :=
  (strict = true /\ u = UninitRead /\
    ((exists c, op = TPush c /\ 128 <= c) \/ (exists i c, op = TInsert i c /\ boundary cs i) \/
     (exists pre c post h, op = TExtendChars ((Some <$> pre) ++ Some c :: post) h /\ 128 <= c))) \/
  ((op = TShrinkToFit \/ op = TShrinkTo 0) /\ cs = [] /\ u = ZeroSizeAlloc).
