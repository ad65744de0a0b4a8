(** Properties C41-C48 and C97: String. *)
From Verif Require Import StrFacts.

(** Full statement: after any history of safe calls the bytes are well-formed UTF-8.  Missing: the
    vector handed out by [as_mut_vec], which is a safe method (see [C41_utf8_refuted]).  Every other
    history keeps the bytes well-formed, unless and until one of the two kinds of undefined call
    occurs; panics of single calls, of predicates, iterators and refused allocations included. *)
Theorem C41_utf8_partial : forall (EN : Env) (w0 : world N) v0 w1 ops outs v w,
  wok w0 -> begins w0 v0 w1 -> N.max (2 * (vcap v0 + total_tdemand ops)) 8 <= isize_max ->
  Forall args_ok ops -> Forall not_mut ops -> trun ops (v0, w1) = (outs, (v, w)) ->
  (Forall defined outs /\ exists bs, vec_as_slice v w = (Ret bs, w) /\ wellformed bs) \/
  (exists pre op post outs' cs u, ops = pre ++ op :: post /\ outs = outs' ++ [UB u] /\
     Forall defined outs' /\ tunsound e_strict cs op u).
Proof. exact p_C41_utf8_partial. Qed.
Print Assumptions C41_utf8_partial.

Example C41_utf8_ex : wok w_start /\ (exists v w, @begins env_debug w_start v w) /\
  tdemo_outs (EN:=env_debug) w_start
    [TPushStr [233; 65]; TInsertStr 1 [97]; TRetain (fun _ c => Some (65 <? c)); TPush 66; TLen] =
    [Ret RUnit; Panic PAssert; Ret RUnit; Ret RUnit; Ret (RNum 3)].
Proof. exact x_C41_utf8_ex. Qed.

(** Writing the byte 255 through [as_mut_vec] makes a [String] that is not UTF-8, in safe code. *)
Theorem C41_utf8_refuted : exists (EN : Env) (w0 : world N) v0 w1 ops outs v w bs,
  wok w0 /\ str_new w0 = (Ret v0, w1) /\ Forall args_ok ops /\
  trun ops (v0, w1) = (outs, (v, w)) /\ Forall defined outs /\
  vec_as_slice v w = (Ret bs, w) /\ ~ wellformed bs.
Proof. exact p_C41_utf8_refuted. Qed.
Print Assumptions C41_utf8_refuted.

(** Full statement: every history behaves as on a sequence of characters.  Missing: in the strict
    reading, [push] of a non-ASCII character and [insert] make integers from uninitialised memory
    (see [C42_uninit_refuted]), and shrinking an empty string to nothing reallocates to zero bytes;
    the history is followed up to the first such call. *)
Theorem C42_history_partial : forall (EN : Env) (w0 : world N) v0 w1 ops,
  wok w0 -> str_new w0 = (Ret v0, w1) -> N.max (2 * total_tdemand ops) 8 <= isize_max ->
  Forall args_ok ops -> Forall not_mut ops ->
  exists outs v w, trun ops (v0, w1) = (outs, (v, w)) /\
  ((exists cs bs, ttrace refuses [] ops outs cs /\ vec_as_slice v w = (Ret bs, w) /\ text cs bs) \/
   (exists pre op post outs' cs u, ops = pre ++ op :: post /\ outs = outs' ++ [UB u] /\
      ttrace refuses [] pre outs' cs /\ tunsound e_strict cs op u)).
Proof. exact p_C42_history_partial. Qed.
Print Assumptions C42_history_partial.

Example C42_history_ex : wok w_start /\
  tdemo_outs (EN:=env_release) w_start
    [TPush 233; TInsert 0 8364; TInsert 1 65; TRemove 3; TRemove 7; TPop; TAsStr; TTruncate 1;
     TTruncate 0; TPop] =
    [Ret RUnit; Ret RUnit; Panic PAssert; Ret (RVal 233); Panic PIndex; Ret (ROpt (Some 8364));
     Ret (RList []); Ret RUnit; Ret RUnit; Ret (ROpt None)].
Proof. exact x_C42_history_ex. Qed.

Theorem C42_call_partial : forall (EN : Env) v (w : world N) cs op,
  has_text v w cs -> N.max (2 * (vcap v + tdemand op)) 8 <= isize_max -> args_ok op -> not_mut op ->
  exists o v' w', texec op (v, w) = (o, (v', w')) /\
  ((exists cs' bs, tspec refuses cs op o cs' /\ vec_as_slice v' w' = (Ret bs, w') /\ text cs' bs /\
      delete_ptr (vdata v') (heap w') = delete_ptr (vdata v) (heap w)) \/
   (exists u, o = UB u /\ tunsound e_strict cs op u)).
Proof. exact p_C42_call_partial. Qed.
Print Assumptions C42_call_partial.

Example C42_call_ex : @has_text env_debug (fst t1) (snd t1) [97; 233; 122] /\
  fst (texec (EN:=env_debug) (TInsertStr 1 [8364]) t1) = Ret RUnit /\
  fst (texec (EN:=env_debug) (TInsertStr 2 [8364]) t1) = Panic PAssert.
Proof. exact x_C42_call_ex. Qed.

(** [insert_str], [remove] and [truncate] panic exactly for the wrong indices. *)
Theorem C42_panics_exact : forall (EN : Env) v (w : world N) cs i ds,
  has_text v w cs -> i <= usize_max -> Forall scalar ds -> ~ refuses ->
  N.max (2 * (vcap v + tlen ds)) 8 <= isize_max ->
  ((exists p st, texec (TInsertStr i ds) (v, w) = (Panic p, st)) <-> ~ boundary cs i) /\
  ((exists p st, texec (TRemove i) (v, w) = (Panic p, st)) <-> (~ boundary cs i \/ i = tlen cs)) /\
  ((exists p st, texec (TTruncate i) (v, w) = (Panic p, st)) <-> (i < tlen cs /\ ~ boundary cs i)).
Proof. exact p_C42_panics_exact. Qed.
Print Assumptions C42_panics_exact.

Example C42_panics_exact_ex : @has_text env_debug (fst t1) (snd t1) [97; 233; 122] /\
  ~ @refuses env_debug /\ boundary [97; 233; 122] 3 /\ ~ boundary [97; 233; 122] 2.
Proof. exact x_C42_panics_exact_ex. Qed.

(** In the strict reading, [push] of any non-ASCII character is undefined behaviour. *)
Theorem C42_uninit_refuted : forall (EN : Env) v (w : world N) cs c,
  e_strict = true -> has_text v w cs -> scalar c -> 128 <= c ->
  texec (TPush c) (v, w) = (UB UninitRead, (v, w)) /\
  forall i, boundary cs i -> texec (TInsert i c) (v, w) = (UB UninitRead, (v, w)).
Proof. exact p_C42_uninit_refuted. Qed.
Print Assumptions C42_uninit_refuted.

Example C42_uninit_ex : e_strict (Profile:=@e_profile env_debug) = true /\
  @has_text env_debug (fst t1) (snd t1) [97; 233; 122] /\ scalar 233 /\
  fst (texec (EN:=env_debug) (TPush 233) t1) = UB UninitRead.
Proof. exact x_C42_uninit_ex. Qed.

(** A byte vector with any history; [heap w' = heap w0]: its memory is released. *)
Theorem C43_from_utf8 : forall (EN : Env) (w0 : world N) v w bs, reached_from w0 v w bs ->
  (wellformed bs /\ str_from_utf8 v w = (Ret (Some v), w) /\ vec_as_slice v w = (Ret bs, w)) \/
  (~ wellformed bs /\ exists w', str_from_utf8 v w = (Ret None, w') /\ heap w' = heap w0).
Proof. exact p_C43_from_utf8. Qed.
Print Assumptions C43_from_utf8.

Example C43_from_utf8_ex :
  (exists v w, @reached_from env_debug N u8 w_start v w [195; 169] /\
     fst (str_from_utf8 v w) = Ret (Some v)) /\
  (exists v w, @reached_from env_debug N u8 w_start v w [237; 160; 128] /\
     fst (str_from_utf8 v w) = Ret None).
Proof. exact x_C43_from_utf8_ex. Qed.

(** Full statement: [from_utf16] returns the encoded text, or an error exactly for unpaired
    surrogates.  Missing: in the strict reading, a unit above 127 may make it undefined (see
    [C44_from_utf16_refuted]); and the allocator may refuse. *)
Theorem C44_from_utf16_partial : forall (EN : Env) (w : world N) us,
  wok w -> Forall (fun u => u < 65536) us -> 4 * llen us <= isize_max ->
  exists r w', str_from_utf16 us w = (r, w') /\
  ((exists cs v bs, text16 cs us /\ r = Ret (Some v) /\ vec_as_slice v w' = (Ret bs, w') /\ text cs bs /\
      delete_ptr (vdata v) (heap w') = heap w) \/
   ((~ exists cs, text16 cs us) /\ r = Ret None /\ heap w' = heap w) \/
   (r = Panic PUnwrap /\ refuses /\ heap w' = heap w) \/
   (e_strict = true /\ r = UB UninitRead /\ exists u, u ∈ us /\ 128 <= u)).
Proof. exact p_C44_from_utf16_partial. Qed.
Print Assumptions C44_from_utf16_partial.

Example C44_from_utf16_ex : wok w_start /\ text16 [233; 128512] [233; 55357; 56832] /\
  (exists v, fst (@str_from_utf16 env_release [233; 55357; 56832] w_start) = Ret (Some v)) /\
  fst (@str_from_utf16 env_release [65; 55357; 65] w_start) = Ret None.
Proof. exact x_C44_from_utf16_ex. Qed.

Theorem C44_from_utf16_refuted : exists (EN : Env) (w : world N) us cs,
  wok w /\ text16 cs us /\ fst (str_from_utf16 us w) = UB UninitRead.
Proof. exact p_C44_from_utf16_refuted. Qed.
Print Assumptions C44_from_utf16_refuted.

(** Full statement: [String::from(&str)], [from(char)], [from(&String)] and [from_str] return the same
    text.  It fails for every text but the empty one: they panic in [clone_from_slice]. *)
Theorem C45_from_text_refuted : forall (EN : Env) (w : world N) cs,
  wok w -> Forall scalar cs -> cs <> [] ->
  (exists w', str_from_str (encode_all cs) w = (Panic PLen, w') /\ heap w' = heap w) /\
  (forall c, e_strict = false -> exists w', str_from_char c w = (Panic PLen, w') /\ heap w' = heap w) /\
  (forall c, e_strict = true -> str_from_char c w = (UB UninitRead, w)) /\
  (forall v, has_text v w cs -> exists w', str_from_string v w = (Panic PLen, w') /\ heap w' = heap w).
Proof. exact p_C45_from_text_refuted. Qed.
Print Assumptions C45_from_text_refuted.

Theorem C45_from_text_partial : forall (EN : Env) (w : world N),
  wok w -> exists v w', str_from_str [] w = (Ret v, w') /\ vec_as_slice v w' = (Ret [], w') /\ heap w' = heap w.
Proof. exact p_C45_from_text_partial. Qed.
Print Assumptions C45_from_text_partial.

Example C45_from_text_ex : wok w_start /\ Forall scalar [104; 105] /\
  fst (@str_from_str env_debug (encode_all [104; 105]) w_start) = Panic PLen.
Proof. exact x_C45_from_text_ex. Qed.

(** Full statement: [split_off(i)] at a boundary returns the tail and keeps the head.  In the code the
    string keeps everything and the returned string is empty (its capacity is that of the tail). *)
Theorem C46_split_off_refuted : forall (EN : Env) v (w : world N) cs i,
  has_text v w cs -> boundary cs i -> ~ refuses ->
  exists o w' bs, str_split_off i (v, w) = (Ret o, (v, w')) /\ vec_as_slice o w' = (Ret [], w') /\
    vec_as_slice v w' = (Ret bs, w') /\ text cs bs.
Proof. exact p_C46_split_off_refuted. Qed.
Print Assumptions C46_split_off_refuted.

Example C46_split_off_ex : @has_text env_debug (fst t1) (snd t1) [97; 233; 122] /\
  boundary [97; 233; 122] 3 /\ ~ @refuses env_debug.
Proof. exact x_C46_split_off_ex. Qed.

(** What holds: an index that is no boundary panics and changes nothing, the string keeps its text,
    and no memory but the returned string's is taken. *)
Theorem C46_split_off_partial : forall (EN : Env) v (w : world N) cs i,
  has_text v w cs ->
  (~ boundary cs i /\ str_split_off i (v, w) = (Panic PAssert, (v, w))) \/
  (boundary cs i /\ exists r w' bs, str_split_off i (v, w) = (r, (v, w')) /\
     vec_as_slice v w' = (Ret bs, w') /\ text cs bs /\
     ((exists o, r = Ret o /\ delete_ptr (vdata o) (heap w') = heap w) \/
      (r = Panic PUnwrap /\ heap w' = heap w /\ refuses))).
Proof. exact p_C46_split_off_partial. Qed.
Print Assumptions C46_split_off_partial.

(** Two strings, the second made after the first. *)
Theorem C47_order : forall (EN : Env) (w0 : world N) v1 w1 xs v2 w2 ys,
  text_from w0 v1 w1 xs -> text_from w1 v2 w2 ys ->
  (exists o, str_cmp v1 v2 w2 = (Ret o, w2) /\ code_order xs ys o) /\
  (exists b, str_eq v1 v2 w2 = (Ret b, w2) /\ (b = true <-> xs = ys)).
Proof. exact p_C47_order. Qed.
Print Assumptions C47_order.

Example C47_order_ex : @text_from env_debug w_start (fst t1) (snd t1) [97; 233; 122] /\
  @text_from env_debug (snd t1) (fst t2) (snd t2) [98; 8364] /\
  fst (str_cmp (fst t1) (fst t2) (snd t2)) = Ret Lt /\
  fst (str_eq (fst t1) (fst t2) (snd t2)) = Ret false.
Proof. exact x_C47_order_ex. Qed.

(** The order of the specification is a total order consistent with equality. *)
Theorem C47_order_total : forall xs ys, exists o, code_order xs ys o /\
  (forall o', code_order xs ys o' -> o' = o) /\ (o = Eq <-> xs = ys) /\ code_order ys xs (CompOpp o).
Proof. exact p_C47_order_total. Qed.
Print Assumptions C47_order_total.

Example C47_order_total_ex : code_order [97; 233] [97; 8364] Lt /\ code_order [97] [97; 1] Lt.
Proof. exact x_C47_order_total_ex. Qed.

(** [Hash]: the bytes of the text and the byte 255, whatever the hasher; so equal strings have
    equal hashes. *)
Theorem C47_hash : forall (EN : Env) (w0 : world N) v w cs (H : Type) (hb : H -> N -> H) (h : H),
  text_from w0 v w cs ->
  exists bs, text cs bs /\ str_hash hb h v w = (Ret (fold_left hb (bs ++ [255]) h), w).
Proof. exact p_C47_hash. Qed.
Print Assumptions C47_hash.

Example C47_hash_ex : @text_from env_debug w_start (fst t1) (snd t1) [97; 233; 122] /\
  text [97; 233; 122] [97; 195; 169; 122] /\
  fst (str_hash (fun h b => h ++ [b]) [] (fst t1) (snd t1)) = Ret [97; 195; 169; 122; 255].
Proof. exact x_C47_hash_ex. Qed.

(** [clone]: a string with the same text and memory of its own; dropping either leaves the other. *)
Theorem C97_clone : forall (EN : Env) (w0 : world N) v w cs, text_from w0 v w cs ->
  exists r w' bs, str_clone v w = (r, w') /\ text cs bs /\ vec_as_slice v w' = (Ret bs, w') /\
    ((exists v', r = Ret v' /\ vec_as_slice v' w' = (Ret bs, w') /\ str_eq v v' w' = (Ret true, w') /\
        (exists w1, vec_drop_val v' w' = (Ret tt, w1) /\ heap w1 = heap w /\ vec_as_slice v w1 = (Ret bs, w1)) /\
        (exists w1, vec_drop_val v w' = (Ret tt, w1) /\ delete_ptr (vdata v') (heap w1) = heap w0 /\
           vec_as_slice v' w1 = (Ret bs, w1))) \/
     (r = Panic PUnwrap /\ refuses /\ heap w' = heap w)).
Proof. exact p_C97_clone. Qed.
Print Assumptions C97_clone.

Example C97_clone_ex : @text_from env_debug w_start (fst t1) (snd t1) [97; 233; 122] /\
  exists v' w', @str_clone env_debug (fst t1) (snd t1) = (Ret v', w') /\
    vec_as_slice v' w' = (Ret [97; 195; 169; 122], w').
Proof. exact x_C97_clone_ex. Qed.

(** Full statement: extending by characters, texts, strings or boxed texts appends them in order, and
    [+] appends.  Missing: in the strict reading, non-ASCII characters (see [C48_chars_refuted]); boxed
    empty texts in the rest of an iterator that is dropped early.  Size hints are bounded by the
    address space. *)
Theorem C48_extend_chars_partial : forall (EN : Env) v (w : world N) cs it h,
  has_text v w cs -> (forall c, Some c ∈ it -> scalar c) ->
  N.max (2 * (vcap v + (4 * llen it + h))) 8 <= isize_max ->
  exists r v' w', str_extend_chars it h (v, w) = (r, (v', w')) /\
  ((exists cs' bs, appended_it refuses cs (option_map (fun c => [c]) <$> it) r cs' /\
      vec_as_slice v' w' = (Ret bs, w') /\ text cs' bs /\
      delete_ptr (vdata v') (heap w') = delete_ptr (vdata v) (heap w)) \/
   (e_strict = true /\ r = UB UninitRead /\ exists c, Some c ∈ it /\ 128 <= c)).
Proof. exact p_C48_extend_chars_partial. Qed.
Print Assumptions C48_extend_chars_partial.

Example C48_extend_chars_ex : @has_text env_release (fst t3) (snd t3) [233; 8364; 65] /\
  fst (str_extend_chars (EN:=env_release) [Some 233; Some 66; None] 100 t3) = Panic PUser.
Proof. exact x_C48_extend_chars_ex. Qed.

Theorem C48_chars_refuted : exists (EN : Env) v (w : world N) cs it,
  has_text v w cs /\ (forall c, Some c ∈ it -> scalar c) /\
  fst (str_extend_chars it 0 (v, w)) = UB UninitRead.
Proof. exact p_C48_chars_refuted. Qed.
Print Assumptions C48_chars_refuted.

(** Texts. *)
Theorem C48_extend_strs : forall (EN : Env) v (w : world N) cs it,
  has_text v w cs -> (forall ds, Some ds ∈ it -> Forall scalar ds) ->
  N.max (2 * (vcap v + foldr (fun o n => from_option tlen 0 o + n) 0 it)) 8 <= isize_max ->
  exists r v' w' cs' bs, str_extend_strs (option_map encode_all <$> it) (v, w) = (r, (v', w')) /\
    appended_it refuses cs it r cs' /\ vec_as_slice v' w' = (Ret bs, w') /\ text cs' bs /\
    delete_ptr (vdata v') (heap w') = delete_ptr (vdata v) (heap w).
Proof. exact p_C48_extend_strs. Qed.
Print Assumptions C48_extend_strs.

Example C48_extend_strs_ex : @has_text env_debug (fst t1) (snd t1) [97; 233; 122] /\
  fst (str_extend_strs (EN:=env_debug) (option_map encode_all <$> [Some [233]; Some []; Some [97; 98]]) t1) = Ret tt.
Proof. exact x_C48_extend_strs_ex. Qed.

(** Owned strings, each made after the ones before; the buffer of the first one is taken over when
    the string has no capacity.  The heap ends up with the extended string and nothing else new: all
    items are released, when the allocator refuses as well. *)
Theorem C48_extend_strings : forall (EN : Env) (w00 : world N) v w0 cs l w css,
  text_from w00 v w0 cs -> all_from w0 l w css -> tlen cs + tlen (concat css) <= isize_max ->
  exists r v' w' cs' bs, str_extend_strings l (v, w) = (r, (v', w')) /\
    appended refuses cs css r cs' /\ vec_as_slice v' w' = (Ret bs, w') /\ text cs' bs /\
    delete_ptr (vdata v') (heap w') = heap w00.
Proof. exact p_C48_extend_strings. Qed.
Print Assumptions C48_extend_strings.

Example C48_extend_strings_ex : exists w0 v, @text_from env_debug w_start v w0 [] /\ vcap v = 0 /\
  (exists w l, @all_from env_debug w0 l w [[97; 233; 122]; [98; 8364]]).
Proof. exact x_C48_extend_strings_ex. Qed.

(** Boxed texts: boxes that own exactly full strings made one after the other.  None of them may be empty, unless
    the allocator never refuses. *)
Theorem C48_extend_boxes_partial : forall (EN : Env) (w00 : world N) v w0 cs l w css,
  text_from w00 v w0 cs -> all_from w0 (str_from_box <$> l) w css ->
  (refuses -> Forall (fun cs => cs <> []) css) -> tlen cs + tlen (concat css) <= isize_max ->
  exists r v' w' cs' bs, str_extend_boxes l (v, w) = (r, (v', w')) /\
    appended refuses cs css r cs' /\ vec_as_slice v' w' = (Ret bs, w') /\ text cs' bs /\
    delete_ptr (vdata v') (heap w') = heap w00.
Proof. exact p_C48_extend_boxes_partial. Qed.
Print Assumptions C48_extend_boxes_partial.

Example C48_extend_boxes_ex : exists b w, @all_from env_debug (snd t1) (str_from_box <$> [b]) w [[98; 8364]].
Proof. exact x_C48_extend_boxes_ex. Qed.

(** When the allocator refuses, the boxes not yet taken are dropped; dropping an empty one is undefined (C25). *)
Theorem C48_boxes_refuted : exists (EN : Env) (w00 : world N) v w0 cs l w css,
  text_from w00 v w0 cs /\ all_from w0 (str_from_box <$> l) w css /\
  tlen cs + tlen (concat css) <= isize_max /\
  fst (str_extend_boxes l (v, w)) = UB Dangling_access.
Proof. exact p_C48_boxes_refuted. Qed.
Print Assumptions C48_boxes_refuted.

(** Collecting: texts, and strings made on demand. *)
Theorem C48_collect_strs : forall (EN : Env) (w : world N) it,
  wok w -> (forall ds, Some ds ∈ it -> Forall scalar ds) ->
  foldr (fun o n => from_option tlen 0 o + n) 0 it <= isize_max ->
  exists r w', str_collect (str_extend_strs (option_map encode_all <$> it)) w = (r, w') /\
  ((exists v cs bs, r = Ret v /\ appended_it refuses [] it (Ret tt) cs /\
      vec_as_slice v w' = (Ret bs, w') /\ text cs bs /\ delete_ptr (vdata v) (heap w') = heap w) \/
   (exists p cs, r = Panic p /\ appended_it refuses [] it (Panic p) cs /\ heap w' = heap w)).
Proof. exact p_C48_collect_strs. Qed.
Print Assumptions C48_collect_strs.

Example C48_collect_strs_ex : wok w_start /\
  (exists v, fst (@str_collect env_debug (str_extend_strs (EN:=env_debug) (option_map encode_all <$> [Some [233]; Some [97; 98]])) w_start) = Ret v).
Proof. exact x_C48_collect_strs_ex. Qed.

Theorem C48_collect_strings : forall (EN : Env) (w : world N) dss,
  wok w -> Forall (Forall scalar) dss -> foldr (fun ds n => tlen ds + n) 0 dss <= isize_max ->
  exists r w', str_collect (str_extend_built (encode_all <$> dss)) w = (r, w') /\
  ((exists v bs, r = Ret v /\ vec_as_slice v w' = (Ret bs, w') /\ text (concat dss) bs /\
      delete_ptr (vdata v) (heap w') = heap w) \/
   (r = Panic PUnwrap /\ refuses /\ heap w' = heap w)).
Proof. exact p_C48_collect_strings. Qed.
Print Assumptions C48_collect_strings.

Example C48_collect_strings_ex : wok w_start /\ Forall (Forall scalar) [[233]; [97; 98]] /\
  (exists v, fst (@str_collect env_debug (str_extend_built (EN:=env_debug) (encode_all <$> [[233]; [97; 98]])) w_start) = Ret v).
Proof. exact x_C48_collect_strings_ex. Qed.

(** [+] and [+=]. *)
Theorem C48_add : forall (EN : Env) (w0 : world N) v w cs ds,
  text_from w0 v w cs -> Forall scalar ds -> tlen cs + tlen ds <= isize_max ->
  exists r w', str_add v (encode_all ds) w = (r, w') /\
  ((exists v' bs, r = Ret v' /\ vec_as_slice v' w' = (Ret bs, w') /\ text (cs ++ ds) bs /\
      delete_ptr (vdata v') (heap w') = heap w0) \/
   (r = Panic PUnwrap /\ refuses /\ heap w' = heap w0)).
Proof. exact p_C48_add. Qed.
Print Assumptions C48_add.

Example C48_add_ex : @text_from env_debug w_start (fst t1) (snd t1) [97; 233; 122] /\ Forall scalar [8364].
Proof. exact x_C48_add_ex. Qed.
